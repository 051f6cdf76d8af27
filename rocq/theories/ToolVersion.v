(** The version webrpc-gen and webrpc-test say they have, and write into generated code.

    Models /repo/version.go 20-41 (VERSION, init, inferRuntimeVersion), which Makefile 12-23 sets with -ldflags and
    `go install` and `go run` do not.

    Simplifications: strings.TrimSpace trims ASCII white space; the commands are found and do not hang; what they print
    is given by the module and the repository of the working directory as `go help list` and git-describe(1) say:
    `go list -m -f` writes the line end only after a text that is not empty. *)
From Verif Require Import Base Rpc.

(** how the module of the working directory stands to github.com/webrpc/webrpc *)
Inductive moduleState : Type :=
| NoModule                 (** no go.mod, or no go command *)
| Itself                   (** it is the module: its version is the empty string *)
| Requires (v : string)    (** it requires this version, directly or not *)
| NotRequired.             (** it does not: an error, nothing is printed *)

(** the directory the tool is run in; [c_tag] is what `git describe --tags` says, if anything *)
Record cwd := Cwd { c_module : moduleState; c_tag : option string }.

Definition newline : string := String (ascii_of_nat 10) EmptyString.

(** version.go 31: the output of go list *)
Definition goList (c : cwd) : string :=
  match c_module c with
  | Requires v => (v ++ newline)%string
  | NoModule | Itself | NotRequired => EmptyString
  end.
(** version.go 37: the output of git describe *)
Definition gitDescribe (c : cwd) : string :=
  match c_tag c with Some t => (t ++ newline)%string | None => EmptyString end.

(** version.go 28-42 inferRuntimeVersion; the errors of the commands are ignored, the length of the output is looked at *)
Definition inferRuntimeVersion (c : cwd) : string :=
  if negb (String.eqb (goList c) EmptyString) then trimSpace (goList c)
  else if negb (String.eqb (gitDescribe c) EmptyString) then trimSpace (gitDescribe c)
  else "unknown".

(** version.go 19-25: VERSION after init; [injected] is its value in the binary *)
Definition toolVersion (injected : string) (c : cwd) : string :=
  if String.eqb injected EmptyString then inferRuntimeVersion c else injected.
