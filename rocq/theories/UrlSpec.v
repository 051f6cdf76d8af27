(** What users rely on: the URLs of a client lead to the routes of the server. *)
From Verif Require Import Base PathSpec.

(** an identifier, as names of services and methods are *)
Definition Ident (s : string) : Prop := s <> "" /\ sforall (fun c => is_alpha_byte c || is_digit_byte c || Ascii.eqb c "_") s = true.

(** a host name with an optional port *)
Definition HostName (h : string) : Prop := h <> "" /\ sforall (fun c => is_alpha_byte c || is_digit_byte c || Ascii.eqb c "-" || Ascii.eqb c ".") h = true.
Inductive HostPort : string -> Prop :=
| HostAlone h : HostName h -> HostPort h
| HostWithPort h port : HostName h -> sforall is_digit_byte port = true -> HostPort (h ++ ":" ++ port).

(** http or https, in any case *)
Definition HttpScheme (s : string) : Prop := to_lower s = "http" \/ to_lower s = "https".

(** a text without control characters and the characters of another *)
Definition Without (bad s : string) : Prop :=
  sforall (fun c => negb (N_of_byte c <? 32)%N && negb (N_of_byte c =? 127)%N && negb (contains_byte c bad)) s = true.

(** the path of an address, which leads to the directory [d] of the server *)
Inductive PathTo : string -> list string -> Prop :=
| PathNone : PathTo "" []
| PathSome p es d : Without "?#%" p -> Elements p es -> Walk true [] es d -> PathTo ("/" ++ p) d.

(** a query and a fragment *)
Inductive Query : string -> Prop :=
| QueryNone : Query ""
| QuerySome q : q <> "" -> Without "#" q -> Query ("?" ++ q).
Inductive Fragment : string -> Prop :=
| FragmentNone : Fragment ""
| FragmentSome f : Without "%" f -> Fragment ("#" ++ f).

(** the address of a server: its host and the directory the path leads to *)
Inductive Address : string -> string -> list string -> Prop :=
| Addr s h p q f d : HttpScheme s -> HostPort h -> PathTo p d -> Query q -> Fragment f ->
    Address (s ++ "://" ++ h ++ p ++ q ++ f) h d.

(** the text of a directory, without slash at the end *)
Definition dirText (d : list string) : string := sconcat (map (fun e => "/" ++ e)%string d).

(** a base path of named directories, without escapes *)
Definition NamedBase (b : string) : Prop :=
  exists es, Forall (fun e => Name e /\ contains_byte "%" e = false) es /\ b = (dirText es ++ "/")%string.

(** a base path that browsers leave alone: no escapes, no backslashes, no "." and ".." (empty names are kept) *)
Definition WebBase (b : string) : Prop :=
  contains_byte "%" b = false /\ contains_byte "\" b = false /\
  exists es, Elements b es /\ ~ In "." es /\ ~ In ".." es.

(** a name that means itself in addresses *)
Definition PlainName (e : string) : Prop := Name e /\ Without "?#%\" e.
Fixpoint slashesOf (n : nat) : string := match n with O => "" | S k => ("/" ++ slashesOf k)%string end.
