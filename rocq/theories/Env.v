(** How the command line tool finds out about its environment:
    internal/command, internal/git, internal/modules, internal/output/duration.go,
    getLogLevel of cmd/scip-go/main.go, and the parts of net/url they use. *)
From Coq Require Import Ascii String.
From stdpp Require Import prelude strings.
From Verif Require Import GoStr Semver Loader.
Open Scope string_scope.
Open Scope list_scope.

(** ------------------------------------------------------------------ *)
(** net/url (Go standard library, from memory).  Not modelled: IPv6 hosts in brackets
    (reported as an error here), the query and fragment values, which nobody reads. *)

(** strings.Cut(s, c): the text before the first c and, if any, the text after it *)
Fixpoint cut (c : ascii) (s : string) : string * option string :=
  match s with
  | "" => ("", None)
  | String a r =>
      if Ascii.eqb a c then ("", Some r)
      else let '(b, t) := cut c r in (String a b, t)
  end.
Definition is_ctl (c : ascii) : bool := (N.ltb (ch_code c) 32 || N.eqb (ch_code c) 127)%bool.
(** getScheme *)
Fixpoint get_scheme_from (first : bool) (s : string) : option (option (string * string)) :=
  match s with
  | "" => Some None
  | String c r =>
      if is_alpha c then
        match get_scheme_from false r with
        | Some (Some (sch, rest)) => Some (Some (String c sch, rest))
        | x => x
        end
      else if (is_digit c || Ascii.eqb c "+" || Ascii.eqb c "-" || Ascii.eqb c ".")%bool then
        if first then Some None
        else match get_scheme_from false r with
             | Some (Some (sch, rest)) => Some (Some (String c sch, rest))
             | x => x
             end
      else if Ascii.eqb c ":" then
        if first then None (* "missing protocol scheme" *) else Some (Some ("", r))
      else Some None
  end.
Definition get_scheme (s : string) : option (string * string) :=
  match get_scheme_from true s with
  | None => None
  | Some None => Some ("", s)
  | Some (Some (sch, rest)) => Some (sch, rest)
  end.
(** unescape(s, encodePath) *)
Definition unhex (c : ascii) : option N :=
  if is_digit c then Some (ch_code c - 48)%N
  else if in_range "a" "f" c then Some (ch_code c - 87)%N
  else if in_range "A" "F" c then Some (ch_code c - 55)%N
  else None.
Fixpoint unescape_path (s : string) : option string :=
  match s with
  | "" => Some ""
  | String c r =>
      if Ascii.eqb c "%" then
        match r with
        | String h (String l r') =>
            match unhex h, unhex l, unescape_path r' with
            | Some h, Some l, Some t => Some (String (ascii_of_N (16 * h + l)) t)
            | _, _, _ => None
            end
        | _ => None
        end
      else match unescape_path r with Some t => Some (String c t) | None => None end
  end.
(** validOptionalPort *)
Definition valid_optional_port (s : string) : bool :=
  match s with "" => true | String c r => (Ascii.eqb c ":" && str_forallb is_digit r)%bool end.
(** bytes allowed in a host: shouldEscape(c, encodeHost) is false, or not ASCII *)
Definition host_char (c : ascii) : bool :=
  (is_alnum c || str_existsb (Ascii.eqb c) "-_.~!$&'()*+,;=:[]<>""" || N.leb 128 (ch_code c))%bool.
(** parseHost, for hosts not starting with '[' and without '%' *)
Definition parse_host (h : string) : option string :=
  if has_prefix h "[" then None
  else if negb (match last_index ":" h with Some i => valid_optional_port (str_drop i h) | None => true end)
  then None
  else if str_forallb host_char h then Some h else None.
(** validUserinfo; the user's value is not read *)
Definition userinfo_char (c : ascii) : bool :=
  (is_alnum c || str_existsb (Ascii.eqb c) "-._:~!$&'()*+,;=%@")%bool.
(** parseAuthority: only the host is kept *)
Definition parse_authority (a : string) : option string :=
  match last_index "@" a with
  | None => parse_host a
  | Some i =>
      match parse_host (str_drop (S i) a) with
      | None => None
      | Some h =>
          let u := str_take i a in
          if (str_forallb userinfo_char u && match unescape_path u with Some _ => true | None => false end)%bool then Some h else None
      end
  end.

(** Parse: the host and the path of the URL; None is an error *)
Definition url_parse (raw : string) : option (string * string) :=
  let u := (cut "#" raw).1 in
  let frag_ok := match (cut "#" raw).2 with
                 | Some f => match unescape_path f with Some _ => true | None => false end
                 | None => true end in
  if negb frag_ok then None
  else if str_existsb is_ctl u then None
  else if String.eqb u "*" then Some ("", "*")
  else match get_scheme u with
  | None => None
  | Some (sch, rest) =>
      let rest := (cut "?" rest).1 in
      if (negb (has_prefix rest "/") && negb (String.eqb sch ""))%bool then Some ("", "") (* opaque *)
      else if (negb (has_prefix rest "/") && str_existsb (Ascii.eqb ":") (cut "/" rest).1)%bool then None
      else if ((negb (String.eqb sch "") || negb (has_prefix rest "///")) && has_prefix rest "//")%bool then
        let a := str_drop 2 rest in
        let authority := (cut "/" a).1 in
        let path := match (cut "/" a).2 with Some p => String "/" p | None => "" end in
        match parse_authority authority, unescape_path path with
        | Some h, Some p => Some (h, p)
        | _, _ => None
        end
      else match unescape_path rest with Some p => Some ("", p) | None => None end
  end.
(** URL.Hostname *)
Definition hostname (host : string) : string :=
  match last_index ":" host with
  | Some i => if valid_optional_port (str_drop i host) then str_take i host else host
  | None => host
  end.

(** ------------------------------------------------------------------ *)
(** internal/git/infer_repo.go 22-40: parseRemote *)
Definition parse_remote_url (r : string) : option string :=
  match url_parse r with
  | Some (host, path) => Some (hostname host +:+ trim_suffix path ".git")
  | None => None
  end.
Definition parse_remote (r : string) : option string :=
  if has_prefix r "git@" then
    match split_on ":" r with
    | [a; b] => Some (join "/" [trim_prefix a "git@"; trim_suffix b ".git"])
    | _ => parse_remote_url r
    end
  else parse_remote_url r.

(** internal/command/command.go 9-17: Run.  A command is its combined output and whether
    it succeeded. *)
Record cmd_result := CmdResult { cmd_out : string; cmd_ok : bool }.
Definition command_run (c : cmd_result) : string * bool := (trim_space (cmd_out c), cmd_ok c).

(** s[:n]; slicing past the end panics *)
Definition slice_to (s : string) (n : nat) : res string :=
  if Nat.leb n (slen s) then Ok (str_take n s) else Panic "slice bounds out of range".

(** infer_module_version.go 12-38: InferModuleVersion.  [None]: an error is returned. *)
Definition infer_module_version (tag rev : cmd_result) : res (option string) :=
  let '(tags, ok) := command_run tag in
  if negb ok then Ok None
  else if negb (String.eqb tags "") then
    let lines := split_on newline tags in
    match List.find semver_is_valid lines with
    | Some t => Ok (Some t)
    | None => match lines with l :: _ => Ok (Some l) | [] => Panic "index out of range" end
    end
  else
    let '(commit, ok) := command_run rev in
    if negb ok then Ok None
    else let! c := slice_to commit 12 in Ok (Some c).

(** infer_repo.go 13-20: InferRepo *)
Definition infer_repo (remote : cmd_result) : option string :=
  let '(url, ok) := command_run remote in if ok then parse_remote url else None.

(** ------------------------------------------------------------------ *)
(** internal/modules/modules.go 52-76: resolveModuleName; None is an error *)
Definition resolve_module_name (roots : string → option string) (repo name : string)
  : option (string * bool) :=
  let suffix := match roots name with Some r => trim_prefix name r | None => "" end in
  match roots repo with
  | None => None
  | Some r => let n := r +:+ suffix in Some (n, String.eqb n "std")
  end.
(** modfile.ParseLax on an existing go.mod *)
Inductive gomod_file :=
| NoFile                          (** os.ReadFile fails *)
| ParseFails                      (** modfile.ParseLax fails *)
| Parsed (module : option string) (** the module directive's path, if any *).
(** modules.go 15-50: ModuleName.  Ok None: an error; Ok (Some (name, isStdLib)).
    The closure assigns the error of resolveModuleName to the outer err and returns nil,
    and WithProgress' nil result then overwrites it. *)
Definition module_name (roots : string → option string) (gm : gomod_file) (repo in_name : string)
  : res (option (string * bool)) :=
  let finish (n : string) (std : bool) := Ok (Some (n, (String.eqb n "std" || std)%bool)) in
  if negb (String.eqb in_name "") then finish in_name false
  else match gm with
  | NoFile =>
      match resolve_module_name roots repo repo with
      | Some (n, std) => finish n std
      | None => finish "" false   (* err is overwritten by the nil from WithProgress *)
      end
  | ParseFails => Ok None
  | Parsed None => Panic "invalid memory address or nil pointer dereference"
  | Parsed (Some path) => finish path false
  end.

(** ------------------------------------------------------------------ *)
(** internal/output/duration.go 7-14, in nanoseconds *)
Local Open Scope Z_scope.
Definition durations : list Z :=
  [1; 1000; 1000000; 1000000000; 60000000000; 3600000000000].
(** time.Duration.Truncate(m): d - d%m (Go's % truncates towards zero); d if m <= 0 *)
Definition truncate (d m : Z) : Z := if m <=? 0 then d else d - Z.rem d m.
(** the loop of humanElapsed: the number of leading units not above elapsed *)
Fixpoint unit_count (elapsed : Z) (ds : list Z) : nat :=
  match ds with
  | [] => 0
  | d :: ds => if d <=? elapsed then S (unit_count elapsed ds) else 0
  end.
(** duration.go 24-46: humanElapsed *)
Definition human_elapsed (elapsed : Z) : Z :=
  match unit_count elapsed durations with
  | S (S i) =>
      let small := nth i durations 0 in
      let big := nth (S i) durations 0 in
      truncate elapsed (if 100 <? big / small then small * 10 else small)
  | _ => elapsed
  end.

(** ------------------------------------------------------------------ *)
(** cmd/scip-go/main.go 310-326: log levels (slog: Debug -4, Info 0, Warn 4, Error 8) *)
Definition log_levels : list Z := [4; 0; -4].
Definition get_log_level (no_output : bool) (verbosity : Z) : res Z :=
  if no_output then Ok 8
  else
    let v := if Z.of_nat (length log_levels) <=? verbosity then Z.of_nat (length log_levels) - 1 else verbosity in
    if v <? 0 then Panic "index out of range"
    else match nth_error log_levels (Z.to_nat v) with
         | Some l => Ok l
         | None => Panic "index out of range"
         end.
