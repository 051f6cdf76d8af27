(** Examples for the filters *)
From Coq Require Import Permutation.
From Verif Require Import Base BaseProofs Schema TypeSpec TypeProofs Uri ValidateSpec ValidateProofs ValidateIdem
  PropsValidateAux Filter FilterSpec FilterProofs.

Lemma filter_partition {A} (p : A -> bool) l : Permutation (filter p l ++ filter (fun x => negb (p x)) l) l.
Proof.
  induction l as [|a l IH]; [constructor|]. cbn. destruct (p a); cbn.
  - now constructor.
  - apply Permutation_sym, Permutation_cons_app, Permutation_sym. exact IH.
Qed.

(** executable form of [Accepted], for the examples *)
Definition structs_bare (s : schema) : bool :=
  forallb (fun t => negb (String.eqb (t_kind t) "struct") ||
     match t_type t with None => true | Some (VT _ ShUnknown) => true | _ => false end) (sc_types s).

Lemma accepted_run s s' : validate goUriOk s = Ok s' -> no_holes s' = true -> structs_bare s' = true ->
  NoDup (map t_id (sc_types s)) -> Accepted s'.
Proof.
  intros H Hh Hb Hid. pose proof (no_holes_Resolved s' (validate_ok _ _ _ H) Hh) as R.
  split; [exact (validate_fix goUriOk s s' goUriOk_slash H R)|]. split; [assumption|]. split.
  - destruct (validate_types _ _ _ H Hid) as [_ ->]. assumption.
  - intros t v Ht Hk Hv. unfold structs_bare in Hb. rewrite forallb_forall in Hb. specialize (Hb t Ht).
    rewrite Hk, Hv in Hb. cbn in Hb. destruct v as [e []]; try discriminate. reflexivity.
Qed.

Definition mth n (anns : annotations) (i o : list string) : method :=
  Method_ n anns [] false false false (map (fun e => Arg_ "x" (ref e) false) i) (map (fun e => Arg_ "y" (ref e) false) o) [].
Definition st n i (fs : list (string * string)) : type := Type_ ("f", i) "struct" n None (map (fun p => fld (fst p) (snd p)) fs) [] [].

Definition shakeExample : schema :=
  Schema_ "v1" "example" "v1" "rpc"
    [Type_ ("f", 0) "enum" "Kind" (ref "uint32") [Field "USER" None false "0" [] []] [] [];
     st "User" 1 [("id", "uint64"); ("roles", "map<kind,[]Role>")]; st "Role" 2 [("n", "string")];
     st "Admin" 3 [("u", "User"); ("l", "[]Log")]; st "Log" 4 [("m", "any")]; st "Unused" 5 [("u", "User")]]
    [Error_ ("f", 6) 100 "NotFound" "not found" 404]
    [Service_ ("f", 7) "Users"
       [mth "Get" [("auth", ("auth", "token")); ("public", ("public", ""))] ["string"] ["User"];
        mth "List" [("auth", ("auth", "cookie"))] [] ["[]User"]; mth "Ping" [] [] []] [];
     Service_ ("f", 8) "Admins" [mth "Grant" [("internal", ("internal", ""))] ["Admin"] []] []].
Definition accept (s : schema) : schema := match validate goUriOk s with Ok s' => s' | _ => s end.

Lemma shakeExample_accepted : Accepted (accept shakeExample).
Proof.
  apply (accepted_run shakeExample); [vm_compute; reflexivity|vm_compute; reflexivity|vm_compute; reflexivity|].
  cbn. repeat constructor; cbn; intuition congruence.
Qed.

(** a struct that contains a list of itself *)
Definition recursiveExample : schema :=
  Schema_ "v1" "example" "v1" "rpc" [st "Node" 0 [("children", "[]Node")]] []
    [Service_ ("f", 1) "Tree" [mth "Get" [] [] ["Node"]] []; Service_ ("f", 2) "Other" [mth "Ping" [] [] []] []].

Lemma recursiveExample_accepted : Accepted (accept recursiveExample).
Proof.
  apply (accepted_run recursiveExample); [vm_compute; reflexivity|vm_compute; reflexivity|vm_compute; reflexivity|].
  cbn. repeat constructor; cbn; intuition congruence.
Qed.

Lemma recursiveExample_recursive : RecursiveArguments (accept recursiveExample).
Proof.
  assert (F : FieldOf (sc_types (accept recursiveExample)) "Node" "Node").
  { eexists _, _, _. split; [left; reflexivity|]. split; [reflexivity|]. split; [reflexivity|].
    split; [left; reflexivity|]. split; [reflexivity|]. do 2 constructor. }
  exists "Node". split; [|now apply FP_one].
  eexists. split.
  - eexists _, _, _. split; [left; reflexivity|]. split; [exact I|]. split; [left; reflexivity|].
    split; [left; reflexivity|reflexivity].
  - left. constructor.
Qed.

(** a method that takes an alias *)
Definition aliasExample : schema :=
  Schema_ "v1" "example" "v1" "rpc" [Type_ ("f", 0) "alias" "Id" (ref "string") [] [] []] []
    [Service_ ("f", 1) "Users" [mth "Get" [] ["Id"] []] []].

Lemma aliasExample_accepted : Accepted (accept aliasExample).
Proof.
  apply (accepted_run aliasExample); [vm_compute; reflexivity|vm_compute; reflexivity|vm_compute; reflexivity|].
  cbn. repeat constructor; cbn; intuition congruence.
Qed.
