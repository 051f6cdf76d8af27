(** Specification of the template cache. *)
From Verif Require Import Base BigSpec Schema Cli Cache.

Definition Template (f : string) : Prop := exists b, f = (b ++ ".go.tmpl")%string.

(** [fs] holds exactly the template files of the repository [R] *)
Definition SameTemplates (fs R : files) : Prop := forall f, Template f -> assoc f fs = assoc f R.

(** A time stamp: a positive decimal number (of seconds since 1970) between blanks; numbers too large for 64 bits
    count as the largest. *)
Definition Spaces (s : string) : Prop :=
  Forall (fun c => In (N_of_byte c) [9; 10; 11; 12; 13; 32]%N) (list_ascii_of_string s).
Inductive Stamp : string -> Z -> Prop :=
| StampI a s b z : Spaces a -> Spaces b -> Decimal s z -> (0 < z)%Z ->
    Stamp (a ++ s ++ b)%string (Z.min z 9223372036854775807).

(** the cache of [target] can be used: its directory has a time stamp *)
Definition Stamped (target : string) (d : disk) (ts : Z) : Prop :=
  exists text, assoc timestampFile (dirOf d (cacheDir target)) = Some text /\ Stamp text ts.
Definition Available (target : string) (d : disk) : Prop := exists ts, Stamped target d ts.

(** what can have happened to the disk before a run, if the repository of
    [target] always had the content [R]: completed runs (the network may
    fail; writing the cache may fail while there is no cache yet), runs that
    crashed at any point while there was no cache yet, and anything in other
    directories *)
Inductive History (target : string) (R : files) : disk -> Prop :=
| Hstart : History target R []
| Hrun d refresh now fetch stop r d' :
    History target R d -> fetch = None \/ fetch = Some R -> stop = None \/ ~ Available target d ->
    loadRemote target refresh now fetch stop d = (r, d') -> History target R d'
| Hcrash d now k :
    History target R d -> ~ Available target d ->
    History target R (mapSet (cacheDir target) (crashed target R now k (dirOf d (cacheDir target))) d)
| Hother d d' : History target R d -> dirOf d' (cacheDir target) = dirOf d (cacheDir target) -> History target R d'.
