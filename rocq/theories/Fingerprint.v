(** internal/implementations/fingerprint/fingerprint.go, with the parts of strconv (Quote) and
    text/scanner it uses. *)
From Coq Require Import Ascii String Decimal DecimalString DecimalN.
From stdpp Require Import prelude strings.
From Verif Require Import GoStr Scip GoTypes Quote.
Open Scope string_scope.
Open Scope list_scope.
Local Open Scope Z_scope.

(** the Unicode tables, for runes from 128 on: strconv.IsPrint, unicode.IsLetter, unicode.IsDigit *)
Record unicode := Unicode { u_print : Z → bool; u_letter : Z → bool; u_digit : Z → bool }.

(** *** unicode/utf8 *)
Definition cont_byte (c : ascii) : option Z := if (Z.leb 128 (ord c) && Z.ltb (ord c) 192)%bool then Some (ord c - 128) else None.
(** utf8.DecodeRuneInString of a string starting with a byte from 128 on: the rune and the rest,
    None for RuneError with width 1 *)
Definition decode_rune (s : string) : option (Z * string) :=
  match s with
  | String a s1 =>
      let v := ord a in
      if (Z.leb 194 v && Z.ltb v 224)%bool then
        match s1 with
        | String b r => match cont_byte b with Some b => Some ((v - 192) * 64 + b, r) | None => None end
        | "" => None
        end
      else if (Z.leb 224 v && Z.ltb v 240)%bool then
        match s1 with
        | String b (String c r) =>
            match cont_byte b, cont_byte c with
            | Some b, Some c =>
                let n := (v - 224) * 4096 + b * 64 + c in
                if (Z.leb 2048 n && valid_rune n)%bool then Some (n, r) else None
            | _, _ => None
            end
        | _ => None
        end
      else if (Z.leb 240 v && Z.ltb v 245)%bool then
        match s1 with
        | String b (String c (String d r)) =>
            match cont_byte b, cont_byte c, cont_byte d with
            | Some b, Some c, Some d =>
                let n := (v - 240) * 262144 + b * 4096 + c * 64 + d in
                if (Z.leb 65536 n && valid_rune n)%bool then Some (n, r) else None
            | _, _, _ => None
            end
        | _ => None
        end
      else None
  | "" => None
  end.

(** *** strconv.Quote, used by the verb q of fmt *)
Definition hex_char (d : Z) : ascii := match String.get (Z.to_nat d) "0123456789abcdef" with Some c => c | None => "0" end.
Fixpoint hex_text (k : nat) (n : Z) : string :=
  match k with O => "" | S k => hex_text k (n / 16) +:+ String (hex_char (n mod 16)) "" end.
Definition printable (u : unicode) (n : Z) : bool := if Z.ltb n 128 then (Z.leb 32 n && Z.ltb n 127)%bool else u_print u n.
(** strconv.appendEscapedRune *)
Definition escaped_rune (u : unicode) (n : Z) : string :=
  if (Z.eqb n 34 || Z.eqb n 92)%bool then String "\" (String (chr n) "")
  else if printable u n then utf8_encode n
  else if Z.eqb n 7 then "\a" else if Z.eqb n 8 then "\b" else if Z.eqb n 12 then "\f"
  else if Z.eqb n 10 then "\n" else if Z.eqb n 13 then "\r" else if Z.eqb n 9 then "\t" else if Z.eqb n 11 then "\v"
  else if (Z.ltb n 32 || Z.eqb n 127)%bool then "\x" +:+ hex_text 2 n
  else if Z.ltb n 65536 then "\u" +:+ hex_text 4 n
  else "\U" +:+ hex_text 8 n.
(** strconv.appendQuotedWith, between the quotes *)
Fixpoint quote_body (u : unicode) (fuel : nat) (s : string) : string :=
  match fuel with
  | O => ""
  | S fuel =>
      match s with
      | "" => ""
      | String c r =>
          if Z.ltb (ord c) 128 then escaped_rune u (ord c) +:+ quote_body u fuel r
          else match decode_rune s with
               | Some (n, r) => escaped_rune u n +:+ quote_body u fuel r
               | None => "\x" +:+ hex_text 2 (ord c) +:+ quote_body u fuel r
               end
      end
  end.
Definition quote (u : unicode) (s : string) : string :=
  String dquote (quote_body u (slen s) s +:+ String dquote "").

(** the verb d of fmt; strconv.Atoi of decimal digits *)
Definition decimal (n : Z) : string := NilEmpty.string_of_uint (N.to_uint (Z.to_N n)).
Definition format_int (n : Z) : string := if Z.ltb n 0 then String "-" (decimal (- n)) else decimal n.
(** the verb t *)
Definition format_bool (b : bool) : string := if b then "true" else "false".

(** *** fingerprint.go 93-236: fingerprint.  The closure writes to a buffer; here the text
    ([print]), the flag ([tricky]) and whether it panics ([encode_panics]) are separate. *)
(** types.Basic.String, the kinds printed by default at fingerprint.go 163-175 *)
Definition basic_name (k : basic_kind) : string :=
  match k with
  | BBool => "bool" | BInt => "int" | BInt8 => "int8" | BInt16 => "int16" | BInt32 => "rune" | BInt64 => "int64"
  | BUint => "uint" | BUint8 => "byte" | BUint16 => "uint16" | BUint32 => "uint32" | BUint64 => "uint64" | BUintptr => "uintptr"
  | BFloat32 => "float32" | BFloat64 => "float64" | BComplex64 => "complex64" | BComplex128 => "complex128"
  | BString => "string" | BUnsafePointer => "(qual ""unsafe"" Pointer)"
  | BInvalid => "invalid type"
  | _ => "" (* panics *)
  end.
Definition is_untyped (k : basic_kind) : bool :=
  match k with
  | BUntypedBool | BUntypedInt | BUntypedRune | BUntypedFloat | BUntypedComplex | BUntypedString | BUntypedNil => true
  | _ => false end.

Section Print.
  Context (u : unicode).
  (** fingerprint.go 107-114 *)
  Definition print_tname (tn : tname) : string :=
    match tn_pkg tn with
    | Some p => "(qual " +:+ quote u p +:+ " " +:+ tn_name tn +:+ ")"
    | None => tn_name tn
    end.
  (** fingerprint.go 193-196 *)
  Definition print_field_name (f : fhdr) : string :=
    if is_exported (fh_name f) then fh_name f
    else "(qual " +:+ quote u (default "" (fh_pkg f)) +:+ " " +:+ fh_name f +:+ ")".
  (** fingerprint.go 97-231 *)
  Fixpoint print (t : ty) : string :=
    let args := fix args (l : list ty) : string :=
      match l with [] => "" | t :: l => " " +:+ print t +:+ args l end in
    match t with
    | TAlias _ r => print r
    | TNamed tn [] => print_tname tn
    | TNamed tn l => "(inst " +:+ print_tname tn +:+ args l +:+ ")"
    | TArray n e => "(array " +:+ format_int n +:+ " " +:+ print e +:+ ")"
    | TSlice e => "(slice " +:+ print e +:+ ")"
    | TPointer e => "(ptr " +:+ print e +:+ ")"
    | TMap k v => "(map " +:+ print k +:+ " " +:+ print v +:+ ")"
    | TChan d e => "(chan " +:+ format_int (Z.of_nat d) +:+ " " +:+ print e +:+ ")"
    | TTuple l => "(tuple" +:+ args l +:+ ")"
    | TBasic k _ => basic_name k
    | TSig ps rs v =>
        "(func " +:+ "(tuple" +:+ args ps +:+ ")" +:+ (if v then " v" else "") +:+ " " +:+ "(tuple" +:+ args rs +:+ ")" +:+ ")"
    | TStruct fs =>
        "(struct" +:+
        (fix fields (fs : list (fhdr * ty)) : string :=
           match fs with
           | [] => ""
           | (f, t) :: fs => " " +:+ print_field_name f +:+ " " +:+ format_bool (fh_embedded f) +:+ " " +:+ quote u (fh_tag f) +:+ " "
                             +:+ print t +:+ fields fs
           end) fs +:+ ")"
    | TInterface [] _ => "any"
    | TInterface _ _ => "(interface)"
    | TTypeParam _ i => "(typeparam " +:+ format_int (Z.of_nat i) +:+ ")"
    | TUnion _ => ""
    end.
  (** fingerprint.go 218, 225 *)
  Fixpoint tricky (t : ty) : bool :=
    match t with
    | TAlias _ r => tricky r
    | TNamed _ l | TTuple l => existsb tricky l
    | TArray _ e | TSlice e | TPointer e | TChan _ e => tricky e
    | TMap k v => (tricky k || tricky v)%bool
    | TSig ps rs _ => (existsb tricky ps || existsb tricky rs)%bool
    | TStruct fs => existsb (λ f, tricky f.2) fs
    | TInterface (_ :: _) _ | TTypeParam _ _ => true
    | TBasic _ _ | TInterface [] _ | TUnion _ => false
    end.
  (** fingerprint.go 110-111 (a name without package), 171-173 (untyped), 195 (field without
      package), 228-229 (union) *)
  Fixpoint encode_panics (t : ty) : bool :=
    match t with
    | TAlias _ r => encode_panics r
    | TNamed tn l =>
        (match tn_pkg tn with Some _ => false | None => negb (String.eqb (tn_name tn) "error" || String.eqb (tn_name tn) "comparable") end
         || existsb encode_panics l)%bool
    | TTuple l => existsb encode_panics l
    | TArray _ e | TSlice e | TPointer e | TChan _ e => encode_panics e
    | TMap k v => (encode_panics k || encode_panics v)%bool
    | TSig ps rs _ => (existsb encode_panics ps || existsb encode_panics rs)%bool
    | TStruct fs => existsb (λ f, (negb (is_exported (fh_name f.1)) && match fh_pkg f.1 with Some _ => false | None => true end)
                                 || encode_panics f.2)%bool fs
    | TBasic k _ => is_untyped k
    | TInterface _ _ | TTypeParam _ _ => false
    | TUnion _ => true
    end.
  (** fingerprint.go 40: Encode *)
  Definition encode (t : ty) : res (string * bool) :=
    if encode_panics t then Panic "fingerprint" else Ok (print t, tricky t).
End Print.

(** *** fingerprint.go 238-243: sexpr; SNil is nil, SCons a *cons *)
Inductive sexpr := SNil | SStr (s : string) | SInt (n : Z) | SSym (s : string) | SCons (car cdr : sexpr).
Global Instance sexpr_eq_dec : EqDecision sexpr.
Proof. solve_decision. Defined.

(** a call ends, panics or is still running when the fuel is used up *)
Inductive pres (A : Type) := PDone (a : A) | PPanic | POut.
Arguments PDone {A} a. Arguments PPanic {A}. Arguments POut {A}.
Definition pbind {A B} (r : pres A) (f : A → pres B) : pres B :=
  match r with PDone a => f a | PPanic => PPanic | POut => POut end.
Notation "'let^' x ':=' r 'in' b" := (pbind r (λ x, b)) (at level 200, x pattern, r at level 100, b at level 200).
Definition of_option {A} (o : option A) : pres A := match o with Some a => PDone a | None => PPanic end.

(** *** text/scanner: Scan with the default mode, as called at fingerprint.go 249-257, where a
    scanning error panics.  Not modelled (treated as errors): numbers other than decimal
    integers without leading zero, comments. *)
Inductive token := TkEOF | TkIdent (s : string) | TkInt (s : string) | TkStr (s : string) | TkChar (c : ascii).

Section Scan.
  Context (u : unicode).
  (** Scanner.isIdentRune *)
  Definition ident_start (n : Z) : bool :=
    if Z.ltb n 128 then (Z.eqb n 95 || is_alpha (chr n))%bool else u_letter u n.
  Definition ident_rune (n : Z) : bool :=
    if Z.ltb n 128 then (ident_start n || is_digit (chr n))%bool else (u_letter u n || u_digit u n)%bool.
  (** Scanner.next: the next character with its bytes, or an error (invalid UTF-8, NUL) *)
  Definition next_rune (s : string) : option (Z * string * string) :=
    match s with
    | "" => None
    | String c r =>
        if Z.eqb (ord c) 0 then None
        else if Z.ltb (ord c) 128 then Some (ord c, String c "", r)
        else match decode_rune s with Some (n, r) => Some (n, utf8_encode n, r) | None => None end
    end.
  (** Scanner.scanIdentifier: the longest run of identifier characters *)
  Fixpoint scan_ident (fuel : nat) (s : string) : option (string * string) :=
    match fuel with
    | O => None
    | S fuel =>
        match s with
        | "" => Some ("", "")
        | _ =>
            match next_rune s with
            | None => None
            | Some (n, b, r) =>
                if ident_rune n then match scan_ident fuel r with Some (w, r) => Some (b +:+ w, r) | None => None end
                else Some ("", s)
            end
        end
    end.
  Fixpoint scan_digits (s : string) : string * string :=
    match s with
    | String c r => if is_digit c then let '(w, r') := scan_digits r in (String c w, r') else ("", s)
    | "" => ("", "")
    end.
  (** the characters that could continue a number token *)
  Definition number_char (c : ascii) : bool := (is_alnum c || Ascii.eqb c "." || Ascii.eqb c "_")%bool.
  (** Scanner.scanNumber, decimal integers only *)
  Definition scan_number (s : string) : option (string * string) :=
    let '(w, r) := scan_digits s in
    match w with
    | String "0" (String _ _) => None
    | _ => match r with String c _ => if number_char c then None else Some (w, r) | "" => Some (w, r) end
    end.
  (** Scanner.scanDigits: exactly n digits *)
  Fixpoint scan_n_digits (digit : ascii → option Z) (n : nat) (s : string) : option (string * string) :=
    match n, s with
    | O, _ => Some ("", s)
    | S n, String c r =>
        match digit c with
        | Some _ => match scan_n_digits digit n r with Some (w, r) => Some (String c w, r) | None => None end
        | None => None
        end
    | S _, "" => None
    end.
  (** Scanner.scanEscape, after the backslash *)
  Definition scan_escape (s : string) : option (string * string) :=
    match s with
    | String e r =>
        if existsb (Ascii.eqb e) ["a"; "b"; "f"; "n"; "r"; "t"; "v"; "\"; dquote]%char then Some (String e "", r)
        else if Ascii.eqb e "x" then match scan_n_digits unhex 2 r with Some (w, r) => Some (String e w, r) | None => None end
        else if Ascii.eqb e "u" then match scan_n_digits unhex 4 r with Some (w, r) => Some (String e w, r) | None => None end
        else if Ascii.eqb e "U" then match scan_n_digits unhex 8 r with Some (w, r) => Some (String e w, r) | None => None end
        else scan_n_digits octal 3 s
    | "" => None
    end.
  (** Scanner.scanString, after the opening quote: the text up to the closing quote, the rest *)
  Fixpoint scan_string (fuel : nat) (s : string) : option (string * string) :=
    match fuel with
    | O => None
    | S fuel =>
        match next_rune s with
        | None => None
        | Some (n, b, r) =>
            if Z.eqb n 34 then Some ("", r)
            else if Z.eqb n 10 then None
            else if Z.eqb n 92 then
              match scan_escape r with
              | Some (e, r) => match scan_string fuel r with Some (w, r) => Some (String "\" (e +:+ w), r) | None => None end
              | None => None
              end
            else match scan_string fuel r with Some (w, r) => Some (b +:+ w, r) | None => None end
        end
    end.
  (** GoWhitespace *)
  Fixpoint skip_white (s : string) : string :=
    match s with
    | String c r => if existsb (Z.eqb (ord c)) [9; 10; 13; 32] then skip_white r else s
    | "" => ""
    end.
  (** Scanner.Scan: the token and the rest; None is a call of scan.Error, which panics *)
  Definition scan (s0 : string) : option (token * string) :=
    let s := skip_white s0 in
    match s with
    | "" => Some (TkEOF, "")
    | String c r =>
        match next_rune s with
        | None => None
        | Some (n, b, r) =>
            if ident_start n then match scan_ident (S (slen s)) s with Some (w, r) => Some (TkIdent w, r) | None => None end
            else if is_digit c then match scan_number s with Some (w, r) => Some (TkInt w, r) | None => None end
            else if Z.eqb n 34 then
              match scan_string (slen s) r with Some (w, r) => Some (TkStr (String dquote (w +:+ String dquote "")), r) | None => None end
            else if existsb (Ascii.eqb c) ["'"; "`"; "/"; "."]%char then None
            else Some (TkChar c, r)
        end
    end.

  (** strconv.Atoi on the digits of an integer token *)
  Definition atoi (s : string) : option Z :=
    match NilEmpty.uint_of_string s with
    | Some d => let n := Z.of_N (N.of_uint d) in if Z.ltb n 9223372036854775808 then Some n else None
    | None => None
    end.

  (** fingerprint.go 249-303: parseFingerprint; the state is the current token and the rest *)
  Fixpoint parse (fuel : nat) (st : token * string) : pres (sexpr * (token * string)) :=
    match fuel with
    | O => POut
    | S fuel =>
        match st.1 with
        | TkChar "("%char => let^ st := of_option (scan st.2) in parse_list fuel st
        | TkIdent s => let^ st := of_option (scan st.2) in PDone (SSym s, st)
        | TkInt s => let^ st := of_option (scan st.2) in let^ n := of_option (atoi s) in PDone (SInt n, st)
        | TkStr s => let^ st := of_option (scan st.2) in let^ v := of_option (unquote s) in PDone (SStr v, st)
        | _ => PPanic
        end
    end
  (** fingerprint.go 267-271: the loop *)
  with parse_list (fuel : nat) (st : token * string) : pres (sexpr * (token * string)) :=
    match fuel with
    | O => POut
    | S fuel =>
        match st.1 with
        | TkChar ")"%char => let^ st := of_option (scan st.2) in PDone (SNil, st)
        | _ => let^ (car, st) := parse fuel st in let^ (cdr, st) := parse_list fuel st in PDone (SCons car cdr, st)
        end
    end.
  Definition parse_fingerprint (fuel : nat) (fp : string) : pres sexpr :=
    let^ st := of_option (scan fp) in let^ (x, _) := parse fuel st in PDone x.
End Scan.

(** *** fingerprint.go 308-339: writeSexpr (Tree.String, 46-50); the tail of a dotted list goes to
    the standard error stream, not to the text *)
Fixpoint write_sexpr (u : unicode) (x : sexpr) : string :=
  match x with
  | SNil => "()"
  | SStr s => quote u s
  | SInt n => format_int n
  | SSym s => s
  | SCons a d =>
      "(" +:+ write_sexpr u a +:+
      (fix tail (d : sexpr) : string :=
         match d with
         | SNil => ""
         | SCons a d => " " +:+ write_sexpr u a +:+ tail d
         | _ => " . "
         end) d +:+ ")"
  end.

(** *** fingerprint.go 457-464: typeParamIndex; a failed type assertion panics *)
Definition type_param_index (x : sexpr) : pres Z :=
  match x with
  | SCons (SSym s) d =>
      if String.eqb s "typeparam" then match d with SCons (SInt i) _ => PDone i | _ => PPanic end else PDone (-1)
  | _ => PDone (-1)
  end.
(** fingerprint.go 346-356: maxTypeParam *)
Fixpoint max_type_param (x : sexpr) : pres Z :=
  let^ i := type_param_index x in
  if Z.leb 0 i then PDone i
  else match x with
       | SCons a d => let^ m := max_type_param a in let^ n := max_type_param d in PDone (Z.max m n)
       | _ => PDone (-1)
       end.
(** the slices of bindings: pointers to cells, and the cells; SNil is an unbound cell *)
Record bindings := Bindings { bx : list nat; by_ : list nat; cells : list sexpr }.
(** slice[i]; out of range panics *)
Definition index (l : list nat) (i : Z) : pres nat :=
  if Z.ltb i 0 then PPanic else match l !! Z.to_nat i with Some c => PDone c | None => PPanic end.
(** fingerprint.go 372-382: occurs *)
Fixpoint occurs (b : nat) (l : list nat) (s : sexpr) : pres bool :=
  let^ j := type_param_index s in
  if Z.leb 0 j then let^ c := index l j in PDone (Nat.eqb b c)
  else match s with
       | SCons a d => let^ o := occurs b l a in if o then PDone true else occurs b l d
       | _ => PDone false
       end.
Definition cell (st : bindings) (b : nat) : sexpr := default SNil (cells st !! b).
(** fingerprint.go 369-389: bind *)
Definition bind (b : nat) (s : sexpr) (l : list nat) (st : bindings) : pres (bool * bindings) :=
  let^ o := occurs b l s in
  if o then PDone (false, st) else PDone (true, Bindings (bx st) (by_ st) (<[b := s]> (cells st))).
(** the type of the value inside the interface (reflect.TypeOf) *)
Definition dynamic_type (x : sexpr) : nat :=
  match x with SNil => 0 | SStr _ => 1 | SInt _ => 2 | SSym _ => 3 | SCons _ _ => 4 end%nat.
Definition is_nil (x : sexpr) : bool := match x with SNil => true | _ => false end.
Definition binding_of (l : list nat) (i : Z) : pres (option nat) :=
  if Z.leb 0 i then let^ c := index l i in PDone (Some c) else PDone None.
(** fingerprint.go 391-451: uni *)
Fixpoint uni (fuel : nat) (x y : sexpr) (st : bindings) : pres (bool * bindings) :=
  match fuel with
  | O => POut
  | S fuel =>
      let^ ix := type_param_index x in
      let^ b_x := binding_of (bx st) ix in
      let^ iy := type_param_index y in
      let^ b_y := binding_of (by_ st) iy in
      match b_x, b_y with
      | None, None =>
          if negb (Nat.eqb (dynamic_type x) (dynamic_type y)) then PDone (false, st)
          else match x, y with
               | SCons xa xd, SCons ya yd =>
                   let^ (ok, st) := uni fuel xa ya st in
                   if negb ok then PDone (false, st)
                   else if is_nil xd then PDone (is_nil yd, st)
                   else if is_nil yd then PDone (false, st)
                   else uni fuel xd yd st
               | _, _ => PDone (bool_decide (x = y), st)
               end
      | _, _ =>
          let vx := match b_x with Some b => cell st b | None => SNil end in
          let vy := match b_y with Some b => cell st b | None => SNil end in
          match b_x, b_y, is_nil vx, is_nil vy with
          | Some b, Some c, true, true => PDone (true, Bindings (<[Z.to_nat ix := c]> (bx st)) (by_ st) (cells st))
          | _, _, _, _ =>
              let x' := if is_nil vx then x else vx in
              let y' := if is_nil vy then y else vy in
              match b_x, is_nil vx with
              | Some b, true => bind b y' (by_ st) st
              | _, _ =>
                  match b_y, is_nil vy with
                  | Some c, true => bind c x' (bx st) st
                  | _, _ => uni fuel x' y' st
                  end
              end
          end
      end
  end.
(** fingerprint.go 344-367, 452: unify; Matches (63-65) *)
Definition matches (fuel : nat) (x y : sexpr) : pres bool :=
  let^ mx := max_type_param x in
  let^ my := max_type_param y in
  let nx := Z.to_nat (mx + 1) in
  let ny := Z.to_nat (my + 1) in
  let^ (b, _) := uni fuel x y (Bindings (List.seq 0 nx) (List.seq nx ny) (replicate (nx + ny) SNil)) in
  PDone b.
