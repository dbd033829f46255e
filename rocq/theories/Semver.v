(** golang.org/x/mod/semver and golang.org/x/mod/module (pseudo.go), the parts
    scip-go calls: semver.IsValid, semver.Build, module.IsPseudoVersion,
    module.PseudoVersionRev.  They are dependencies whose source is not in /repo;
    they are modelled from the published packages.  Callers in /repo:
    internal/loader/loader.go 242-263, internal/git/infer_module_version.go. *)
From Coq Require Import Ascii String.
From stdpp Require Import prelude strings.
From Verif Require Import GoStr Regex.
Open Scope string_scope.
Open Scope list_scope.

(** maximal prefix of characters satisfying f *)
Fixpoint str_span (f : ascii → bool) (s : string) : string * string :=
  match s with
  | "" => ("", "")
  | String c r => if f c then let p := str_span f r in (String c p.1, p.2) else ("", s)
  end.

(** semver.parseInt: decimal digits without leading zero *)
Definition starts_zero (s : string) : bool :=
  match s with String c _ => Ascii.eqb c "0" | "" => false end.
Definition parse_int (v : string) : option (string * string) :=
  let p := str_span is_digit v in
  if String.eqb p.1 "" then None
  else if (starts_zero v && negb (Nat.eqb (slen p.1) 1))%bool then None
  else Some p.

(** semver.isIdentChar, isBadNum *)
Definition is_ident_char (c : ascii) : bool := (is_alnum c || Ascii.eqb c "-")%bool.
Definition is_bad_num (v : string) : bool :=
  (str_forallb is_digit v && Nat.ltb 1 (slen v) && starts_zero v)%bool.

(** the loops of semver.parsePrerelease and semver.parseBuild after their first
    character: [cur] is v[start:i] *)
Fixpoint dot_loop (stop : ascii → bool) (bad : string → bool) (cur v : string)
  : option (string * string) :=
  match v with
  | "" => if (String.eqb cur "" || bad cur)%bool then None else Some ("", "")
  | String c r =>
      if stop c then
        if (String.eqb cur "" || bad cur)%bool then None else Some ("", v)
      else if (negb (is_ident_char c) && negb (Ascii.eqb c "."))%bool then None
      else if Ascii.eqb c "." then
        if (String.eqb cur "" || bad cur)%bool then None
        else match dot_loop stop bad "" r with
             | Some (t, rest) => Some (String c t, rest)
             | None => None
             end
      else match dot_loop stop bad (cur +:+ String c "") r with
           | Some (t, rest) => Some (String c t, rest)
           | None => None
           end
  end.
Definition parse_prerelease (v : string) : option (string * string) :=
  match v with
  | String "-" r =>
      match dot_loop (Ascii.eqb "+") is_bad_num "" r with
      | Some (t, rest) => Some (String "-" t, rest)
      | None => None
      end
  | _ => None
  end.
Definition parse_build (v : string) : option (string * string) :=
  match v with
  | String "+" r =>
      match dot_loop (λ _, false) (λ _, false) "" r with
      | Some (t, rest) => Some (String "+" t, rest)
      | None => None
      end
  | _ => None
  end.

Record semver := SemVer {
  sv_major : string; sv_minor : string; sv_patch : string;
  sv_pre : string; sv_build : string }.

(** semver.parse: "v" major ["." minor ["." patch [-prerelease] [+build]]] *)
Definition parse_tail (mj mn pt v : string) : option semver :=
  match (match v with
         | String "-" _ => parse_prerelease v
         | _ => Some ("", v) end) with
  | None => None
  | Some (pre, v) =>
      match (match v with
             | String "+" _ => parse_build v
             | _ => Some ("", v) end) with
      | None => None
      | Some (b, v) => if String.eqb v "" then Some (SemVer mj mn pt pre b) else None
      end
  end.
Definition semver_parse (v : string) : option semver :=
  match v with
  | String "v" v =>
      match parse_int v with
      | None => None
      | Some (mj, "") => Some (SemVer mj "" "" "" "")
      | Some (mj, String "." v) =>
          match parse_int v with
          | None => None
          | Some (mn, "") => Some (SemVer mj mn "" "" "")
          | Some (mn, String "." v) =>
              match parse_int v with
              | None => None
              | Some (pt, v) => parse_tail mj mn pt v
              end
          | Some (_, _) => None
          end
      | Some (_, _) => None
      end
  | _ => None
  end.
Definition semver_is_valid (v : string) : bool :=
  match semver_parse v with Some _ => true | None => false end.
(** semver.Build: the build suffix including "+", "" if none or invalid *)
Definition semver_build (v : string) : string :=
  match semver_parse v with Some p => sv_build p | None => "" end.

(** module.pseudoVersionRE:
    ^v[0-9]+\.(0\.0-|\d+\.\d+-([^+]*\.)?0\.)\d{14}-[A-Za-z0-9]+(\+[0-9A-Za-z-]+(\.[0-9A-Za-z-]+)* )?$  (blank added before the last closing parenthesis) *)
Definition RDigits : regex := RPlus (RCls is_digit).
Definition RIdent : regex := RPlus (RCls is_ident_char).
Definition pseudo_re : regex :=
  RSeq (RLit "v") (RSeq RDigits (RSeq (RLit ".")
  (RSeq (RAlt (RLit "0.0-")
              (RSeq RDigits (RSeq (RLit ".") (RSeq RDigits (RSeq (RLit "-")
                (RSeq (ROpt (RSeq (RStar (RCls (λ c, negb (Ascii.eqb c "+")))) (RLit ".")))
                      (RLit "0.")))))))
  (RSeq (RRep 14 (RCls is_digit)) (RSeq (RLit "-")
  (RSeq (RPlus (RCls is_alnum))
        (ROpt (RSeq (RLit "+") (RSeq RIdent (RStar (RSeq (RLit ".") RIdent))))))))))).
(** module.IsPseudoVersion *)
Definition is_pseudo_version (v : string) : bool :=
  (Nat.leb 2 (count_char "-" v) && semver_is_valid v && rmatchb pseudo_re v)%bool.
(** module.PseudoVersionRev: None is the error *)
Definition pseudo_version_rev (v : string) : option string :=
  if is_pseudo_version v then
    let v := trim_suffix v (semver_build v) in
    match last_index "-" v with Some j => Some (str_drop (S j) v) | None => None end
  else None.
