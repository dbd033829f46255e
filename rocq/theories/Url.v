(** The project root of the metadata: internal/index/scip.go 87, url.URL{Scheme: "file", Path: root}.String().
    net/url is part of the standard library, whose source is not in /repo: modelled from its
    documentation and RFC 3986.  Bytes are characters of a string. *)
From Coq Require Import Ascii String.
From stdpp Require Import prelude strings.
From Verif Require Import GoStr Scip Loader Pass2 Index Quote.
Open Scope string_scope.
Open Scope list_scope.
Local Open Scope Z_scope.

(** net/url shouldEscape(c, encodePath): letters, digits, - _ . ~ and $ & + , / : ; = @ are kept *)
Definition path_char (c : ascii) : bool :=
  (is_alnum c || str_existsb (Ascii.eqb c) "-_.~$&+,/:;=@")%bool.
(** the hexadecimal digits of net/url (upperhex) *)
Definition upper_hex (n : Z) : ascii :=
  if Z.ltb n 10 then chr (48 + n) else chr (55 + n).
(** net/url escape(s, encodePath) *)
Fixpoint path_escape (s : string) : string :=
  match s with
  | "" => ""
  | String c s =>
      if path_char c then String c (path_escape s)
      else String "%" (String (upper_hex (ord c / 16)) (String (upper_hex (ord c mod 16)) (path_escape s)))
  end.
(** (u *URL) EscapedPath with RawPath empty *)
Definition escaped_path (p : string) : string := if String.eqb p "*" then "*" else path_escape p.
(** (u *URL) String with Scheme "file", no host: the two slashes are written if the path is not empty *)
Definition file_url (p : string) : string :=
  "file:" +:+ (if String.eqb p "" then "" else "//") +:+ escaped_path p.

(** scip.go 88-97: the metadata of an index *)
Definition index_metadata (tool_version : string) (o : index_opts) : metadata :=
  Meta (file_url (io_module_root o)) "scip-go" tool_version (io_arguments o).
