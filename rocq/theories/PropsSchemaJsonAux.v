(** Proofs and witnesses for Props_SchemaJson.v *)
From Coq Require Import Permutation.
From Verif Require Import Base BaseProofs Utf8 Json JsonProofs GoVal GoValProofs Schema TypeSpec Uri ValidateSpec ValidateProofs ValidateComplete ValidateIdem
  PropsValidateAux Ridl LoadSpec LoadProofs DeclSpec DeclProofs Cli SchemaJson Sha1 Main JsonSchemaSpec SchemaJsonProofs SchemaJsonBack
  Corpus Conformance TextSchema.

Lemma loaded_facts fs u p s : loadFile fs u p = LOk s ->
  (exists s0, validate u s0 = Ok s) /\ NoDup (map t_id (sc_types s)).
Proof.
  intros H. apply loadFile_iff in H. split; [|apply (c_types_once _ _ _ (loaded_content _ _ _ _ H))].
  destruct H as [q nodes imps s _ _ HP]. unfold Process in HP.
  apply bind_ok in HP as (s0 & _ & HP). apply bind_ok in HP as (s2 & _ & HP). eauto.
Qed.

Lemma slash_closed : closed_slash goUriOk.
Proof. intros p. apply goUriOk_slash. Qed.

Lemma default_facts isPrint s :
  checkBasePath goUriOk (sc_basepath s) = Ok (sc_basepath s) -> WSchema isPrint s -> SchemaOk Portable s ->
  checkBasePath goUriOk (sc_basepath (defaultBasePath s)) = Ok (sc_basepath (defaultBasePath s)) /\
  WSchema isPrint (defaultBasePath s) /\ SchemaOk Portable (defaultBasePath s).
Proof.
  intros B W O. unfold defaultBasePath. destruct (String.eqb _ _ && _); [|auto]. split; [reflexivity|]. split.
  - destruct W as (W1 & W2 & W3 & W4 & W5). split; [exact W1|]. split; [exact W2|]. split; [exact W3|]. split; [|exact W5].
    apply ascii_valid. reflexivity.
  - destruct O as [V1 V2 V3 V4 V5 V6 V7]. constructor; assumption.
Qed.

Lemma default_types s : sc_types (defaultBasePath s) = sc_types s /\ sc_services (defaultBasePath s) = sc_services s.
Proof. unfold defaultBasePath. destruct (String.eqb _ _ && _); auto. Qed.
Lemma default_idem s : sc_basepath (defaultBasePath s) <> "" \/ sc_services s = [].
Proof.
  unfold defaultBasePath. destruct (String.eqb_spec (sc_basepath s) "") as [E|N]; cbn [andb].
  - destruct (sc_services s) eqn:V; cbn; [now right|left; discriminate].
  - now left.
Qed.
Lemma default_fix s : sc_basepath s <> "" \/ sc_services s = [] -> defaultBasePath s = s.
Proof.
  unfold defaultBasePath. destruct (String.eqb_spec (sc_basepath s) "") as [E|N]; cbn [andb]; [|reflexivity].
  intros [H| ->]; [contradiction|reflexivity].
Qed.

Lemma ridl_loads fs u cwd p s : parseSchemaFile fs u cwd p = Ok s -> pathExt (pathAbs cwd p) = ".ridl" -> LoadsTo fs u (drop 1 (pathAbs cwd p)) s.
Proof.
  intros H X. unfold parseSchemaFile in H. rewrite X in H. cbn [String.eqb Ascii.eqb Bool.eqb] in H.
  destruct (loadFile fs u _) eqn:L; try discriminate. injection H as <-. now apply loadFile_iff in L.
Qed.
Lemma complete_no_holes s : (forall v, RefIn s v -> tree v <> None) -> no_holes s = true.
Proof.
  intros H. assert (A : forall o, (forall v, o = Some v -> RefIn s v) -> has_tree o = true).
  { intros [v|] Hv; [|reflexivity]. cbn. specialize (H v (Hv v eq_refl)). now destruct (tree v). }
  unfold no_holes. rewrite andb_true_iff, !forallb_forall. split.
  - intros t Ht. apply orb_true_iff. right. apply forallb_forall. intros f Hf. apply A. intros v Hv. left. exists t. split; [exact Ht|]. right. now exists f.
  - intros sv Hs. apply forallb_forall. intros m Hm. apply forallb_forall. intros a Ha. apply A. intros v Hv. right. exists sv, m, a.
    apply in_app_or in Ha. auto.
Qed.
Definition allRefs (s : schema) : list (option varType) :=
  flat_map (fun t => t_type t :: map f_type (t_fields t)) (sc_types s) ++
  flat_map (fun v => flat_map (fun m => map g_type (me_inputs m ++ me_outputs m)) (v_methods v)) (sc_services s).
Lemma allRefs_ok s v : RefIn s v -> In (Some v) (allRefs s).
Proof.
  intros [(t & Ht & H)|(sv & m & a & Hs & Hm & Ha & E)]; apply in_or_app; [left|right].
  - apply in_flat_map. exists t. split; [exact Ht|]. destruct H as [<-|(f & Hf & <-)]; [now left|]. right. now apply in_map.
  - apply in_flat_map. exists sv. split; [exact Hs|]. apply in_flat_map. exists m. split; [exact Hm|]. rewrite <- E. apply in_map. now apply in_or_app.
Qed.

(** a schema of the repository: streaming aside it uses everything a schema can have *)
Definition example_file : string := "_examples/golang-basics/example.ridl".
Definition identB {A} (f : A -> ident) (l : list A) : bool :=
  (fix nd (l : list ident) := match l with [] => true | x :: r => negb (existsb (ident_eqb x) r) && nd r end) (map f l).
Lemma identB_ok {A} (f : A -> ident) l : identB f l = true -> NoDup (map f l).
Proof.
  unfold identB. generalize (map f l). clear. induction l as [|x l IH]; [constructor|]. rewrite andb_true_iff, negb_true_iff. intros [H1 H2].
  constructor; [|auto]. intros Hx. assert (existsb (ident_eqb x) l = true) by (apply existsb_exists; exists x; split; [exact Hx|now apply ident_eqb_eq]).
  congruence.
Qed.

Definition example_checks (r : result schema) : bool :=
  match r with
  | Ok s => okSchema s && noEnumAlias s && no_holes s && identB t_id (sc_types s) && identB v_id (sc_services s) &&
            ((3 =? length (sc_services s)) && (2 <? length (sc_errors s)) && (5 <? length (sc_types s)))%nat
  | _ => false
  end.

Lemma parseSchemaFile_inv fs u cwd p s : parseSchemaFile fs u cwd p = Ok s -> exists s0, validate u s0 = Ok s.
Proof.
  unfold parseSchemaFile. intros H. destruct (String.eqb (pathExt _) ".json").
  - destruct (assoc _ fs) as [t|]; [|discriminate]. unfold parseSchemaJSON in H. destruct (parseRaw t) as [j|]; [|discriminate].
    apply bind_ok in H as (s0 & _ & H). eauto.
  - destruct (String.eqb (pathExt _) ".ridl"); [|discriminate].
    destruct (loadFile fs u (drop 1 (pathAbs cwd p))) eqn:L; try discriminate. injection H as <-. now apply loaded_facts in L.
Qed.

Lemma example_meets : exists s, parseSchemaFile repo goUriOk "/repo" example_file = Ok s /\
  WSchema goIsPrint s /\ SchemaOk Portable s /\ NoDup (map t_id (sc_types s)) /\ NoDup (map v_id (sc_services s)) /\
  (length (sc_services s) = 3 /\ 2 < length (sc_errors s) /\ 5 < length (sc_types s))%nat.
Proof.
  assert (G : example_checks (parseSchemaFile repo goUriOk "/repo" example_file) = true) by (vm_compute; reflexivity).
  destruct (parseSchemaFile repo goUriOk "/repo" example_file) as [s| | |] eqn:E; try discriminate G.
  exists s. split; [reflexivity|]. cbn [example_checks] in G. rewrite !andb_true_iff in G.
  destruct G as [[[[[G1 G2] G3] G4] G5] [[G6 G7] G8]].
  split; [now apply okSchema_ok|]. split.
  { apply portable_ok; [|exact G2]. apply no_holes_Resolved; [|exact G3]. apply parseSchemaFile_inv in E as (s0 & E). eapply validate_ok, E. }
  split; [now apply identB_ok|]. split; [now apply identB_ok|].
  apply Nat.eqb_eq in G6. apply Nat.ltb_lt in G7, G8. auto.
Qed.

Definition refs_check (r : result schema) : bool :=
  match r with
  | Ok s => forallb has_tree (allRefs s) && noEnumAlias s
  | _ => false
  end.
Lemma example_refs : exists s, parseSchemaFile repo goUriOk "/repo" example_file = Ok s /\
  (forall v, RefIn s v -> WType goIsPrint v /\ tree v <> None) /\ NoDup (map v_id (sc_services s)) /\
  (forall t v e n d, In t (sc_types s) -> t_type t = Some v -> v = VT e (ShEnum n d) -> t_kind t = "enum").
Proof.
  destruct example_meets as (s & P & W & _ & _ & NV & _). exists s. split; [exact P|].
  assert (G : refs_check (parseSchemaFile repo goUriOk "/repo" example_file) = true) by (vm_compute; reflexivity).
  rewrite P in G. cbn [refs_check] in G. apply andb_true_iff in G as [G1 G2]. rewrite forallb_forall in G1. split; [|split; [exact NV|]].
  - intros v Hv. split; [exact (W_refs _ _ W v Hv)|]. apply allRefs_ok, G1 in Hv. clear P W. unfold has_tree in Hv. destruct (tree v); [intros X; discriminate X|discriminate Hv].
  - intros t v e n d Ht E ->. unfold noEnumAlias in G2. rewrite forallb_forall in G2. specialize (G2 t Ht). rewrite E, orb_false_r in G2. apply String.eqb_eq in G2. exact G2.
Qed.

(** ** witnesses *)
Definition ridlFile (body : string) : string := ("webrpc = v1

name = x
version = v1

" ++ body)%string.

Definition enumAliasDisk : list (string * string) := [("a.ridl", ridlFile "enum Kind: uint32
  - A
  - B

struct S
  - m: map<Alt,string>

type Alt: Kind
")].

Definition twiceDisk : list (string * string) :=
  [("a.ridl", ridlFile "import
  - b.ridl
  - c.ridl
"); ("b.ridl", ridlFile "import
  - d.ridl
"); ("c.ridl", ridlFile "import
  - d.ridl
"); ("d.ridl", ridlFile "service S
  - M()
")].

Definition unprintable : string := ("A" ++ String (ascii_of_nat 1) "b")%string.
Definition unprintableDisk : list (string * string) :=
  [("a.ridl", ridlFile ("struct " ++ unprintable ++ "
  - x: string

struct C
  - y: " ++ unprintable ++ "
"))%string].

(** the same file with one more comment *)
Definition plainDisk : list (string * string) := [("a.ridl", ridlFile "struct S
  - m: string
")].
Definition commentDisk : list (string * string) := [("a.ridl", ridlFile "# a struct
struct S
  - m: string
")].

Definition outcome (fs : list (string * string)) : option (option (result schema)) :=
  match parseSchemaFile fs goUriOk "/" "/a.ridl" with
  | Ok s => Some (option_map (parseSchemaJSON goUriOk) (toJSON goIsPrint s))
  | _ => None
  end.
Lemma outcome_inv fs o : outcome fs = Some o -> exists s, parseSchemaFile fs goUriOk "/" "/a.ridl" = Ok s /\
  o = option_map (parseSchemaJSON goUriOk) (toJSON goIsPrint s).
Proof. unfold outcome. destruct (parseSchemaFile _ _ _ _) as [s| | |]; try discriminate. intros [= <-]. eauto. Qed.

(** ** SHA-1 in hexadecimal *)
Lemma hexDigit_ok n : (n < 16)%N -> In (hexDigit n) (list_ascii_of_string "0123456789abcdef").
Proof.
  intros H. assert (I : In n [0;1;2;3;4;5;6;7;8;9;10;11;12;13;14;15]%N).
  { cbn [In]. lia. }
  cbn [In] in I. repeat (destruct I as [<-|I]; [vm_compute; tauto|]). contradiction.
Qed.
Lemma be_bytes k n : Forall (fun b => (b < 256)%N) (be k n) /\ length (be k n) = k.
Proof.
  unfold be. split; [|now rewrite map_length, rev_length, seq_length].
  apply Forall_map, Forall_forall. intros i _. change 255%N with (N.ones 8). rewrite N.land_ones. apply N.mod_lt. discriminate.
Qed.
Lemma hexBytes_shape bs : Forall (fun b => (b < 256)%N) bs ->
  String.length (hexBytes bs) = (2 * length bs)%nat /\
  Forall (fun c => In c (list_ascii_of_string "0123456789abcdef")) (list_ascii_of_string (hexBytes bs)).
Proof.
  intros H. unfold hexBytes. rewrite list_ascii_of_string_of_list_ascii. induction H as [|b bs Hb _ [IH1 IH2]]; [split; [reflexivity|constructor]|].
  cbn [flat_map app string_of_list_ascii String.length length]. split; [rewrite IH1; lia|].
  constructor; [apply hexDigit_ok, N.div_lt_upper_bound; [discriminate|assumption]|].
  constructor; [apply hexDigit_ok, N.mod_lt; discriminate|assumption].
Qed.
Lemma sha1Hex_shape t : String.length (sha1Hex t) = 40%nat /\
  Forall (fun c => In c (list_ascii_of_string "0123456789abcdef")) (list_ascii_of_string (sha1Hex t)).
Proof.
  unfold sha1Hex, sha1. set (d := blocks _ _ _).
  assert (B : forall l, Forall (fun b => (b < 256)%N) (flat_map (be 4) l) /\ length (flat_map (be 4) l) = (4 * length l)%nat).
  { induction l as [|x l [IH1 IH2]]; [split; [constructor|reflexivity]|]. cbn [flat_map length]. rewrite app_length, IH2, (proj2 (be_bytes 4 x)).
    split; [apply Forall_app; split; [apply be_bytes|assumption]|lia]. }
  destruct (B [dA d; dB d; dC d; dD d; dE d]) as [B1 B2]. destruct (hexBytes_shape _ B1) as [S1 S2].
  split; [rewrite S1, B2; reflexivity|exact S2].
Qed.

Lemma hash_separates (h : string -> string) isPrint s s' : WSchema isPrint s -> WSchema isPrint s' ->
  option_map h (toJSON isPrint s) = option_map h (toJSON isPrint s') ->
  SameContent SameExpr s s' \/
  exists t t', toJSON isPrint s = Some t /\ toJSON isPrint s' = Some t' /\ t <> t' /\ h t = h t'.
Proof.
  intros W W' H.
  destruct (toJSON_back _ _ W) as (t & j & T & _). destruct (toJSON_back _ _ W') as (t' & j' & T' & _).
  rewrite T, T' in *. cbn [option_map] in H. injection H as H. destruct (string_dec t t') as [E|N]; [left|right; eauto 6].
  apply (toJSON_injective isPrint); [assumption|assumption|]. rewrite T, T', E. reflexivity.
Qed.

Lemma hash_of_some (f : string -> string) t h : option_map f (Some t) = Some h -> h = f t.
Proof. cbn [option_map]. congruence. Qed.
