(** strconv.Unquote for double-quoted literals (a dependency of document.go 333-360, modelled
    from its documentation).  Bytes from 128 on are copied: for text in UTF-8, which
    types.ObjectString gives (strconv.Quote escapes other bytes). *)
From Coq Require Import Ascii String.
From stdpp Require Import prelude strings.
From Verif Require Import GoStr Document.
Open Scope string_scope.
Open Scope list_scope.
Local Open Scope Z_scope.

Definition chr (n : Z) : ascii := ascii_of_N (Z.to_N n).
Definition ord (c : ascii) : Z := Z.of_N (N_of_ascii c).
Definition newline : ascii := "010".

(** strconv.unhex *)
Definition unhex (c : ascii) : option Z :=
  let n := ord c in
  if (Z.leb 48 n && Z.leb n 57)%bool then Some (n - 48)
  else if (Z.leb 97 n && Z.leb n 102)%bool then Some (n - 97 + 10)
  else if (Z.leb 65 n && Z.leb n 70)%bool then Some (n - 65 + 10)
  else None.
(** n hexadecimal digits *)
Fixpoint hex_run (n : nat) (acc : Z) (s : string) : option (Z * string) :=
  match n, s with
  | O, _ => Some (acc, s)
  | S n, String c r => match unhex c with Some d => hex_run n (acc * 16 + d) r | None => None end
  | S _, "" => None
  end.
(** utf8.AppendRune for a valid rune *)
Definition utf8_encode (r : Z) : string :=
  if Z.ltb r 128 then String (chr r) ""
  else if Z.ltb r 2048 then String (chr (192 + r / 64)) (String (chr (128 + r mod 64)) "")
  else if Z.ltb r 65536 then
    String (chr (224 + r / 4096)) (String (chr (128 + r / 64 mod 64)) (String (chr (128 + r mod 64)) ""))
  else String (chr (240 + r / 262144)) (String (chr (128 + r / 4096 mod 64))
         (String (chr (128 + r / 64 mod 64)) (String (chr (128 + r mod 64)) ""))).
(** utf8.ValidRune *)
Definition valid_rune (r : Z) : bool :=
  ((Z.leb 0 r && Z.ltb r 55296) || (Z.ltb 57343 r && Z.leb r 1114111))%bool.
Definition octal (c : ascii) : option Z := if (Z.leb 48 (ord c) && Z.leb (ord c) 55)%bool then Some (ord c - 48) else None.

(** strconv.UnquoteChar after a backslash, quote is the double quote: the bytes and the rest *)
Definition unescape (e : ascii) (r : string) : option (string * string) :=
  match e with
  | "a"%char => Some (String (chr 7) "", r)
  | "b"%char => Some (String (chr 8) "", r)
  | "f"%char => Some (String (chr 12) "", r)
  | "n"%char => Some (String (chr 10) "", r)
  | "r"%char => Some (String (chr 13) "", r)
  | "t"%char => Some (String (chr 9) "", r)
  | "v"%char => Some (String (chr 11) "", r)
  | "\"%char => Some (String "\" "", r)
  | """"%char => Some (String dquote "", r)
  | "x"%char => match hex_run 2 0 r with Some (n, r) => Some (String (chr n) "", r) | None => None end
  | "u"%char => match hex_run 4 0 r with
                | Some (n, r) => if valid_rune n then Some (utf8_encode n, r) else None
                | None => None end
  | "U"%char => match hex_run 8 0 r with
                | Some (n, r) => if valid_rune n then Some (utf8_encode n, r) else None
                | None => None end
  | _ =>
      match octal e with
      | Some a =>
          match r with
          | String c (String d r) =>
              match octal c, octal d with
              | Some b, Some c => let n := a * 64 + b * 8 + c in if Z.ltb 255 n then None else Some (String (chr n) "", r)
              | _, _ => None
              end
          | _ => None
          end
      | None => None
      end
  end.
(** the text between the quotes *)
Fixpoint unquote_body (fuel : nat) (s : string) : option string :=
  match fuel with
  | O => None
  | S fuel =>
      match s with
      | "" => Some ""
      | String c r =>
          if (Ascii.eqb c dquote || Ascii.eqb c newline)%bool then None
          else if Ascii.eqb c "\" then
            match r with
            | "" => None
            | String e r =>
                match unescape e r with
                | Some (b, r) => match unquote_body fuel r with Some v => Some (b +:+ v) | None => None end
                | None => None
                end
            end
          else match unquote_body fuel r with Some v => Some (String c v) | None => None end
      end
  end.
(** all but the last byte, if the last byte is a double quote *)
Fixpoint strip_quote (s : string) : option string :=
  match s with
  | "" => None
  | String c "" => if Ascii.eqb c dquote then Some "" else None
  | String c r => match strip_quote r with Some b => Some (String c b) | None => None end
  end.
(** strconv.Unquote of a text starting with a double quote *)
Definition unquote (s : string) : option string :=
  match s with
  | String c r => if Ascii.eqb c dquote then match strip_quote r with Some b => unquote_body (S (slen b)) b | None => None end else None
  | "" => None
  end.

(** *** Specification *)
(** the value of a hexadecimal or octal digit, of a string of digits *)
Definition hex_digit (c : ascii) (n : Z) : Prop :=
  0 <= n < 16 ∧ (String.get (Z.to_nat n) "0123456789abcdef" = Some c ∨ String.get (Z.to_nat n) "0123456789ABCDEF" = Some c).
Inductive hex_value : string → Z → Prop :=
| hv_nil : hex_value "" 0
| hv_snoc s c v n : hex_value s v → hex_digit c n → hex_value (s +:+ String c "") (16 * v + n).
Definition octal_digit (c : ascii) (n : Z) : Prop := 0 <= n < 8 ∧ String.get (Z.to_nat n) "01234567" = Some c.
Definition simple_escapes : list (ascii * nat) :=
  [("a", 7); ("b", 8); ("f", 12); ("n", 10); ("r", 13); ("t", 9); ("v", 11); ("\", 92); ("""", 34)]%char%nat.
(** a Unicode scalar value *)
Definition scalar (r : Z) : Prop := 0 <= r <= 1114111 ∧ ¬ 55296 <= r <= 57343.

(** The Go specification: the value of an interpreted string literal, without the quotes *)
Inductive literal_value : string → string → Prop :=
| lv_nil : literal_value "" ""
| lv_char c b v : c ≠ dquote → c ≠ "\"%char → c ≠ newline → literal_value b v → literal_value (String c b) (String c v)
| lv_simple e n b v : (e, n) ∈ simple_escapes → literal_value b v →
    literal_value (String "\" (String e b)) (String (ascii_of_nat n) v)
| lv_hex ds n b v : slen ds = 2%nat → hex_value ds n → literal_value b v →
    literal_value ("\x" +:+ (ds +:+ b)) (String (chr n) v)
| lv_octal d1 d2 d3 n1 n2 n3 b v : octal_digit d1 n1 → octal_digit d2 n2 → octal_digit d3 n3 →
    64 * n1 + 8 * n2 + n3 < 256 → literal_value b v →
    literal_value (String "\" (String d1 (String d2 (String d3 b)))) (String (chr (64 * n1 + 8 * n2 + n3)) v)
| lv_u ds n b v : slen ds = 4%nat → hex_value ds n → scalar n → literal_value b v →
    literal_value ("\u" +:+ (ds +:+ b)) (utf8_encode n +:+ v)
| lv_U ds n b v : slen ds = 8%nat → hex_value ds n → scalar n → literal_value b v →
    literal_value ("\U" +:+ (ds +:+ b)) (utf8_encode n +:+ v).

(** a quoted literal ends at the first double quote that does not follow a backslash *)
Inductive literal_body : string → Prop :=
| lb_nil : literal_body ""
| lb_char c b : c ≠ dquote → c ≠ "\"%char → literal_body b → literal_body (String c b)
| lb_escape c b : literal_body b → literal_body (String "\" (String c b)).
Definition no_quote (s : string) : Prop := ∀ i, String.get i s ≠ Some dquote.

(** text as plain parts and literals *)
Fixpoint text (segments : list (string * string)) (tail : string) : string :=
  match segments with
  | [] => tail
  | (plain, body) :: l => plain +:+ (String dquote (body +:+ String dquote (text l tail)))
  end.
(** the same with the literals replaced by the value in backticks *)
Fixpoint with_backticks (segments : list (string * string)) (tail : string) : string :=
  match segments with
  | [] => tail
  | (plain, value) :: l => plain +:+ (String backtick (value +:+ String backtick (with_backticks l tail)))
  end.
