(** The command line program: cmd/scip-go/main.go 60-71, 121-243 (getLogLevel and
    duration.go: Env.v).  Argument parsing (kong) is not modelled; the
    memory profile (122-137, --profile) is in Commands.v. *)
From Coq Require Import Ascii String.
From stdpp Require Import prelude strings gmap.
From Verif Require Import GoStr Scip Pass2 Loader Index Output Proto.
Open Scope string_scope.
Open Scope list_scope.

(** *** Files
    What a path names.  Only the last element of a path may be a symbolic link; problems with
    directories on the way are errors of the operation.  No other process changes the tree
    during the run. *)
Inductive fnode := FReg (content : string) | FDir | FSpecial (received : string) | FLink (target : string).
Notation ftree := (gmap string fnode).

(** following links; the kernel gives up after 40 *)
Fixpoint follow (fuel : nat) (t : ftree) (p : string) : option string :=
  match t !! p with
  | Some (FLink q) => match fuel with O => None | S fuel => follow fuel t q end
  | _ => Some p
  end.
Definition resolve (t : ftree) (p : string) : option string := follow 40 t p.

(** os.Create: O_RDWR|O_CREATE|O_TRUNC, follows links.  [err]: an error of the system
    (permission, missing directory, full disk...).  Result: the file opened. *)
Definition os_create (err : option string) (t : ftree) (p : string) : string + (string * ftree) :=
  match err with
  | Some e => inl e
  | None =>
      match resolve t p with
      | None => inl "too many levels of symbolic links"
      | Some q =>
          match t !! q with
          | Some FDir => inl "is a directory"
          | Some (FSpecial _) => inr (q, t)
          | _ => inr (q, <[q := FReg ""]> t)
          end
      end
  end.
(** appending to the file opened (writes start at offset 0 of an empty file) *)
Definition append_to (t : ftree) (q b : string) : ftree :=
  match t !! q with
  | Some (FReg c) => <[q := FReg (c +:+ b)]> t
  | Some (FSpecial c) => <[q := FSpecial (c +:+ b)]> t
  | _ => t
  end.
(** os.Stat follows links; Mode().IsRegular() *)
Definition stat_regular (err : option string) (t : ftree) (p : string) : bool :=
  match err, resolve t p with
  | None, Some q => match t !! q with Some (FReg _) => true | _ => false end
  | _, _ => false
  end.
(** os.Remove does not follow links; main.go 191 ignores its error *)
Definition os_remove (err : option string) (t : ftree) (p : string) : ftree :=
  match err with Some _ => t | None => delete p t end.

(** *** main.go 156-186: the writer
    [wr n]: the n-th call of file.Write fails (after writing some of the bytes).
    The "invalid msg type" case (167-168) cannot happen for the messages of [index]. *)
Definition cli_writer (wr : nat → option string) : writer := λ sofar m,
  match marshal m with
  | None => Some "failed to marshal SCIP index to Protobuf"
  | Some _ => match wr (length sofar) with
              | Some e => Some ("failed to write to scip index file: " +:+ e)
              | None => None
              end
  end.
(** the bytes of the messages written *)
Definition bytes_of_messages (l : list message) : string :=
  String.concat "" (map (λ m, default "" (marshal m)) l).

(** what the system does during the run *)
Record sys := Sys {
  sy_create : option string;              (* error of os.Create *)
  sy_write : nat → option string;         (* errors of file.Write *)
  sy_partial : string;                    (* bytes of a message whose Write failed *)
  sy_stat : option string;                (* error of os.Stat *)
  sy_remove : option string               (* error of os.Remove *)
}.
Inductive cli_end := Exit (code : nat) (msg : option string).

(** the text printed on stdout before the n-th write (output.WithProgress,
    WithProgressParallel; nothing when quiet: C41) *)
Notation noise := (nat → string).

(** stdout: the text and the messages in the order of printing; the text after the last
    message has index [length l] *)
Fixpoint stdout_of (no : noise) (n : nat) (l : list message) : string :=
  match l with
  | [] => no n
  | m :: l => no n +:+ (default "" (marshal m) +:+ stdout_of no (S n) l)
  end.
Fixpoint stdout_text (no : noise) (n k : nat) : string :=
  match k with O => no n | S k => no n +:+ stdout_text no (S n) k end.

(** main.go 121-198 (IndexCmd.Run) and 60-71 (main): the file tree, stdout and exit code
    afterwards.  [options]: error of makeOptions; [run]: index.Index applied to the writer.
    A panic ends the process with code 2 and runs no clean-up. *)
Definition index_cmd (s : sys) (no : noise) (options : option string)
    (run : writer → list message * Index.outcome) (output : string) (t : ftree) : ftree * string * cli_end :=
  match options with
  | Some e => (t, no O, Exit 1 (Some e))
  | None =>
      if String.eqb output "-" then
        let '(msgs, o) := run (cli_writer (sy_write s)) in
        match o with
        | Returned None => (t, stdout_of no 0 msgs, Exit 0 None)
        | Returned (Some e) => (t, stdout_of no 0 msgs +:+ sy_partial s, Exit 1 (Some e))
        | Crashed e => (t, stdout_of no 0 msgs, Exit 2 (Some e))
        end
      else
        match os_create (sy_create s) t output with
        | inl e => (t, no O, Exit 1 (Some ("failed to create scip index file: " +:+ e)))
        | inr (q, t) =>
            let '(msgs, o) := run (cli_writer (sy_write s)) in
            let t := append_to t q (bytes_of_messages msgs) in
            let out := stdout_text no 0 (length msgs) in
            match o with
            | Returned None => (t, out, Exit 0 None)
            | Crashed e => (t, out, Exit 2 (Some e))
            | Returned (Some e) =>
                let t := append_to t q (sy_partial s) in
                ((if stat_regular (sy_stat s) t output then os_remove (sy_remove s) t output else t),
                 out, Exit 1 (Some e))
            end
        end
  end.

(** the process is killed (or the machine stops) after [n] bytes have reached the file *)
Definition killed_after (n : nat) (run : writer → list message * Index.outcome) (s : sys) (output : string) (t : ftree) : ftree :=
  match os_create (sy_create s) t output with
  | inl _ => t
  | inr (q, t) => append_to t q (str_take n (bytes_of_messages (run (cli_writer (sy_write s))).1))
  end.

(** *** main.go 200-243: the lines printed by the packages and missing commands *)
Definition packages_lines (current deps : list string) : list string :=
  ["Current packages"] ++ current ++ ["Dependency packages"] ++ deps.
Definition missing_lines (missing : list string) : list string :=
  match missing with [] => ["No missing documents"] | _ => ["Missing documents:"] ++ missing end.
