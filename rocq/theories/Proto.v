(** Serialisation: google.golang.org/protobuf (proto.Marshal, proto.Unmarshal, protowire) for
    the messages of scip.proto that scip-go writes, and the writer of
    cmd/scip-go/main.go 157-186.  The protobuf runtime and scip.proto are dependencies whose
    source is not in /repo: modelled from the wire format specification.  Bytes are
    characters of a string.  Field numbers and enumeration values are those of scip.proto. *)
From Coq Require Import Ascii String.
From stdpp Require Import prelude strings.
From Verif Require Import GoStr Scip Pass2 Loader Index.
Open Scope string_scope.
Open Scope list_scope.
Local Open Scope Z_scope.

(** *** protowire *)
Definition byte (n : Z) : ascii := ascii_of_N (Z.to_N n).
Definition byte_val (c : ascii) : Z := Z.of_N (N_of_ascii c).

(** protowire.AppendVarint of an uint64: at most ten bytes *)
Fixpoint put_varint (fuel : nat) (n : Z) : string :=
  match fuel with
  | O => ""
  | S fuel => if Z.ltb n 128 then String (byte n) ""
              else String (byte (n mod 128 + 128)) (put_varint fuel (n / 128))
  end.
Definition varint (n : Z) : string := put_varint 10 n.
(** protowire.ConsumeVarint: at most ten bytes, the tenth at most 1 *)
Fixpoint get_varint (fuel : nat) (b : string) : option (Z * string) :=
  match fuel, b with
  | S fuel, String c r =>
      if Z.ltb (byte_val c) 128 then
        match fuel with
        | O => if Z.ltb (byte_val c) 2 then Some (byte_val c, r) else None
        | _ => Some (byte_val c, r)
        end
      else match get_varint fuel r with
           | Some (n, r') => Some (byte_val c - 128 + 128 * n, r')
           | None => None
           end
  | _, _ => None
  end.
Definition read_varint (b : string) : option (Z * string) := get_varint 10 b.
(** b[:n], b[n:] *)
Definition read_bytes (n : Z) (b : string) : option (string * string) :=
  if Z.leb n (Z.of_nat (slen b)) then Some (str_take (Z.to_nat n) b, str_drop (Z.to_nat n) b) else None.

(** a field: number and value (varint, length-delimited, or fixed 32/64) *)
Inductive wval := WVarint (n : Z) | WBytes (b : string) | WFixed (b : string).
Notation field := (Z * wval)%type.
Definition put_field (f : field) : string :=
  match f.2 with
  | WVarint n => varint (f.1 * 8) +:+ varint n
  | WBytes b => varint (f.1 * 8 + 2) +:+ varint (Z.of_nat (slen b)) +:+ b
  | WFixed b => varint (f.1 * 8 + (if Nat.eqb (slen b) 4 then 5 else 1)) +:+ b
  end.
Fixpoint put_fields (l : list field) : string :=
  match l with [] => "" | f :: l => put_field f +:+ put_fields l end.
(** protowire.ConsumeTag and ConsumeFieldValue; groups are not modelled (an error) *)
Definition read_field (b : string) : option (field * string) :=
  match read_varint b with
  | None => None
  | Some (tag, b) =>
      let num := tag / 8 in
      if (Z.ltb num 1 || Z.ltb 536870911 num)%bool then None else
      match tag mod 8 with
      | 0 => match read_varint b with Some (n, r) => Some ((num, WVarint n), r) | None => None end
      | 1 => match read_bytes 8 b with Some (x, r) => Some ((num, WFixed x), r) | None => None end
      | 2 => match read_varint b with
             | Some (n, r) => match read_bytes n r with Some (x, r) => Some ((num, WBytes x), r) | None => None end
             | None => None end
      | 5 => match read_bytes 4 b with Some (x, r) => Some ((num, WFixed x), r) | None => None end
      | _ => None
      end
  end.
Fixpoint read_fields_fuel (fuel : nat) (b : string) : option (list field) :=
  match b with
  | "" => Some []
  | _ =>
      match fuel with
      | O => None
      | S fuel => match read_field b with
                  | None => None
                  | Some (f, r) => match read_fields_fuel fuel r with Some l => Some (f :: l) | None => None end
                  end
      end
  end.
(** every field takes at least one byte *)
Definition read_fields (b : string) : option (list field) := read_fields_fuel (slen b) b.

(** *** utf8.ValidString *)
Fixpoint utf8_tail (n : nat) (s : string) : option string :=
  match n, s with
  | O, _ => Some s
  | S n, String c r => if (Z.leb 128 (byte_val c) && Z.ltb (byte_val c) 192)%bool then utf8_tail n r else None
  | S _, "" => None
  end.
Definition second_ok (c : ascii) (s : string) : bool :=
  match s with
  | "" => false
  | String d _ =>
      let c := byte_val c in let d := byte_val d in
      (implb (Z.eqb c 224) (Z.leb 160 d) && implb (Z.eqb c 237) (Z.ltb d 160) &&
       implb (Z.eqb c 240) (Z.leb 144 d) && implb (Z.eqb c 244) (Z.ltb d 144))%bool
  end.
Fixpoint valid_utf8_fuel (fuel : nat) (s : string) : bool :=
  match fuel, s with
  | _, "" => true
  | O, _ => false
  | S fuel, String c r =>
      let v := byte_val c in
      if Z.ltb v 128 then valid_utf8_fuel fuel r
      else
        let n := if (Z.leb 194 v && Z.ltb v 224)%bool then 1%nat
                 else if (Z.leb 224 v && Z.ltb v 240)%bool then 2%nat
                 else if (Z.leb 240 v && Z.ltb v 245)%bool then 3%nat else 0%nat in
        match n with
        | O => false
        | _ => (second_ok c r && match utf8_tail n r with Some r => valid_utf8_fuel fuel r | None => false end)%bool
        end
  end.
Definition valid_utf8 (s : string) : bool := valid_utf8_fuel (slen s) s.

(** *** building a message: proto3 omits zero values *)
Definition f_str (n : Z) (s : string) : list field := if String.eqb s "" then [] else [(n, WBytes s)].
Definition f_num (n v : Z) : list field := if Z.eqb v 0 then [] else [(n, WVarint v)].
Definition f_bool (n : Z) (b : bool) : list field := f_num n (if b then 1 else 0).
Definition f_rep (n : Z) (l : list string) : list field := map (λ s, (n, WBytes s)) l.
(** int32 and enum values are sign-extended to 64 bits *)
Definition int32_wire (z : Z) : Z := z mod 2^64.
Definition f_packed (n : Z) (l : list Z) : list field :=
  match l with [] => [] | _ => [(n, WBytes (String.concat "" (map (λ z, varint (int32_wire z)) l)))] end.

(** *** reading a message *)
Definition sel (n : Z) (l : list field) : list wval := map snd (List.filter (λ f, Z.eqb f.1 n) l).
(** all occurrences of a length-delimited field *)
Fixpoint bytes_of (l : list wval) : list string :=
  match l with [] => [] | WBytes b :: l => b :: bytes_of l | _ :: l => bytes_of l end.
Definition check_utf8 (s : string) : option string := if valid_utf8 s then Some s else None.
(** a string field: the last value *)
Definition get_str (n : Z) (l : list field) : option string :=
  check_utf8 (default "" (last (bytes_of (sel n l)))).
Definition get_strs (n : Z) (l : list field) : option (list string) := mapM check_utf8 (bytes_of (sel n l)).
Definition get_msgs {A} (n : Z) (dec : string → option A) (l : list field) : option (list A) :=
  mapM dec (bytes_of (sel n l)).
(** a scalar field: the last value *)
Fixpoint varints_of (l : list wval) : list Z :=
  match l with [] => [] | WVarint v :: l => v :: varints_of l | _ :: l => varints_of l end.
Definition get_num (n : Z) (l : list field) : Z := default 0 (last (varints_of (sel n l))).
Definition get_bool (n : Z) (l : list field) : bool := negb (Z.eqb (get_num n l) 0).
(** int32: the low 32 bits *)
Definition int32_value (w : Z) : Z := let x := w mod 2^32 in if Z.ltb x (2^31) then x else x - 2^32.
Fixpoint read_packed (fuel : nat) (b : string) : option (list Z) :=
  match b with
  | "" => Some []
  | _ => match fuel with
         | O => None
         | S fuel => match read_varint b with
                     | Some (n, r) => match read_packed fuel r with Some l => Some (int32_value n :: l) | None => None end
                     | None => None end
         end
  end.
Fixpoint read_ints (l : list wval) : option (list Z) :=
  match l with
  | [] => Some []
  | WVarint v :: l => match read_ints l with Some r => Some (int32_value v :: r) | None => None end
  | WBytes b :: l => match read_packed (slen b) b, read_ints l with Some a, Some r => Some (a ++ r) | _, _ => None end
  | WFixed _ :: l => None
  end.
Definition get_ints (n : Z) (l : list field) : option (list Z) := read_ints (sel n l).

Definition opt_bind {A B} (o : option A) (f : A → option B) : option B := match o with Some a => f a | None => None end.
Notation "'let?' x ':=' r 'in' b" := (opt_bind r (λ x, b))
  (at level 200, x pattern, r at level 100, b at level 200, right associativity).

(** *** scip.proto *)
(** message Relationship { symbol = 1; is_reference = 2; is_implementation = 3;
    is_type_definition = 4; is_definition = 5 } *)
Definition put_rel (r : relationship) : list field :=
  f_str 1 (r_symbol r) ++ f_bool 2 (r_is_reference r) ++ f_bool 3 (r_is_implementation r) ++
  f_bool 4 (r_is_type_definition r) ++ f_bool 5 (r_is_definition r).
Definition read_rel (b : string) : option relationship :=
  let? l := read_fields b in let? s := get_str 1 l in
  Some (Rel s (get_bool 2 l) (get_bool 3 l) (get_bool 4 l) (get_bool 5 l)).

(** enum Kind of SymbolInformation *)
Definition kind_number (k : kind) : Z :=
  match k with
  | KUnspecified => 0 | KFunction => 17 | KMethod => 26 | KMethodSpecification => 67 | KTypeAlias => 55
  | KStruct => 49 | KInterface => 21 | KTypeParameter => 58 | KType => 54 | KField => 15 | KVariable => 61
  | KConstant => 8 | KPackage => 35 | KNamespace => 30 | KPredicate => 38
  end.
(** a number outside the table: not a value of the model (unknown enum) *)
Definition kind_of_number (n : Z) : option kind :=
  List.find (λ k, Z.eqb (kind_number k) n)
    [KUnspecified; KFunction; KMethod; KMethodSpecification; KTypeAlias; KStruct; KInterface; KTypeParameter;
     KType; KField; KVariable; KConstant; KPackage; KNamespace; KPredicate].

(** message SymbolInformation { symbol = 1; documentation = 3; relationships = 4; kind = 5;
    display_name = 6; signature_documentation = 7; enclosing_symbol = 8 };
    the signature is a Document with language = 4 and text = 5 *)
Definition put_signature (t : string) : list field := f_str 4 "go" ++ f_str 5 t.
Definition read_signature (b : string) : option string := let? l := read_fields b in get_str 5 l.
Definition put_info (i : syminfo) : list field :=
  f_str 1 (i_symbol i) ++ f_rep 3 (i_documentation i) ++
  f_rep 4 (map (λ r, put_fields (put_rel r)) (i_relationships i)) ++ f_num 5 (kind_number (i_kind i)) ++
  f_str 6 (i_display_name i) ++
  f_rep 7 (match i_signature i with Some t => [put_fields (put_signature t)] | None => [] end) ++
  f_str 8 (i_enclosing i).
Definition read_info (b : string) : option syminfo :=
  let? l := read_fields b in let? s := get_str 1 l in let? doc := get_strs 3 l in
  let? rels := get_msgs 4 read_rel l in let? k := kind_of_number (get_num 5 l) in let? dn := get_str 6 l in
  let? sigs := get_msgs 7 read_signature l in let? en := get_str 8 l in
  Some (Info s doc rels k dn (last sigs) en).

(** message Diagnostic { severity = 1; code = 2; message = 3; source = 4; tags = 5 };
    visitor_file.go 372-378: severity Warning = 2, tag Deprecated = 2 *)
Definition put_diag (d : diag) : list field := f_num 1 2 ++ f_str 3 "Deprecated" ++ f_packed 5 [2].
Definition read_diag (b : string) : option diag :=
  let? l := read_fields b in let? m := get_str 3 l in let? tags := get_ints 5 l in
  if (Z.eqb (get_num 1 l) 2 && String.eqb m "Deprecated" && bool_decide (tags = [2]))%bool then Some DeprecatedDiag else None.
(** message Occurrence { range = 1; symbol = 2; symbol_roles = 3; diagnostics = 6; enclosing_range = 7 } *)
Definition put_occ (o : occurrence) : list field :=
  f_packed 1 (oc_range o) ++ f_str 2 (oc_symbol o) ++ f_num 3 (Z.of_nat (oc_roles o)) ++
  f_rep 6 (map (λ d, put_fields (put_diag d)) (oc_diags o)) ++ f_packed 7 (oc_enclosing o).
Definition read_occ (b : string) : option occurrence :=
  let? l := read_fields b in let? r := get_ints 1 l in let? s := get_str 2 l in
  let? ds := get_msgs 6 read_diag l in let? e := get_ints 7 l in
  Some (Occ r s (Z.to_nat (int32_value (get_num 3 l))) e ds).
(** message Document { relative_path = 1; occurrences = 2; symbols = 3; language = 4 } *)
Definition put_doc (d : document) : list field :=
  f_str 1 (d_path d) ++ f_rep 2 (map (λ o, put_fields (put_occ o)) (d_occs d)) ++
  f_rep 3 (map (λ i, put_fields (put_info i)) (d_symbols d)) ++ f_str 4 "go".
Definition read_doc (b : string) : option document :=
  let? l := read_fields b in let? p := get_str 1 l in let? os := get_msgs 2 read_occ l in
  let? ss := get_msgs 3 read_info l in Some (Doc p os ss).
(** message Metadata { version = 1; tool_info = 2; project_root = 3; text_document_encoding = 4 },
    message ToolInfo { name = 1; version = 2; arguments = 3 }; scip.go 88-97: UTF8 = 1 *)
Definition put_tool (m : metadata) : list field :=
  f_str 1 (md_tool m) ++ f_str 2 (md_version m) ++ f_rep 3 (md_args m).
Definition put_meta (m : metadata) : list field :=
  f_rep 2 [put_fields (put_tool m)] ++ f_str 3 (md_root m) ++ f_num 4 1.
(** several occurrences of a message field are merged: the fields of all of them *)
Definition get_merged (n : Z) (l : list field) : string := String.concat "" (bytes_of (sel n l)).
Definition read_meta (b : string) : option metadata :=
  let? l := read_fields b in let? t := read_fields (get_merged 2 l) in
  let? root := get_str 3 l in let? name := get_str 1 t in let? v := get_str 2 t in let? args := get_strs 3 t in
  Some (Meta root name v args).

(** message Index { metadata = 1; documents = 2; external_symbols = 3 } *)
Record scip_index := SIndex { si_meta : metadata; si_docs : list document; si_exts : list syminfo }.
Definition read_index (b : string) : option scip_index :=
  let? l := read_fields b in let? m := read_meta (get_merged 1 l) in
  let? ds := get_msgs 2 read_doc l in let? es := get_msgs 3 read_info l in Some (SIndex m ds es).

(** all strings of a message are valid UTF-8 (else proto.Marshal fails) *)
Definition info_utf8 (i : syminfo) : bool :=
  (valid_utf8 (i_symbol i) && forallb valid_utf8 (i_documentation i) &&
   forallb (λ r, valid_utf8 (r_symbol r)) (i_relationships i) && valid_utf8 (i_display_name i) &&
   match i_signature i with Some t => valid_utf8 t | None => true end && valid_utf8 (i_enclosing i))%bool.
Definition doc_utf8 (d : document) : bool :=
  (valid_utf8 (d_path d) && forallb (λ o, valid_utf8 (oc_symbol o)) (d_occs d) && forallb info_utf8 (d_symbols d))%bool.
Definition meta_utf8 (m : metadata) : bool :=
  (valid_utf8 (md_root m) && valid_utf8 (md_tool m) && valid_utf8 (md_version m) && forallb valid_utf8 (md_args m))%bool.

(** main.go 157-174: an Index message with one field set, marshalled; None: an error *)
Definition marshal (m : message) : option string :=
  match m with
  | MMeta x => if meta_utf8 x then Some (put_fields [(1, WBytes (put_fields (put_meta x)))]) else None
  | MDoc x => if doc_utf8 x then Some (put_fields [(2, WBytes (put_fields (put_doc x)))]) else None
  | MExt x => if info_utf8 x then Some (put_fields [(3, WBytes (put_fields (put_info x)))]) else None
  end.
