(** C24: the version of the tool in the header.  Theorems only. *)
From Verif Require Import Base BaseProofs Rpc RpcSpec RpcProofs.
From Verif Require Import Schema Gen GenProofs Cache CacheSpec CacheProofs PropsRunAux.
From Verif Require Import ToolVersion.

(** a version or tag: some text without white space *)
Definition Word (v : string) : Prop := v <> EmptyString /\ sforall (fun c => negb (isSpaceByte c)) v = true.
Definition Words (c : cwd) : Prop :=
  (forall v, c_module c = Requires v -> Word v) /\ (forall t, c_tag c = Some t -> Word t).

Lemma trimLeft_word v : Word v -> trimLeft v = v.
Proof.
  intros [N W]. destruct v as [|c r]; [congruence|]. cbn in *. destruct (isSpaceByte c); [discriminate W|reflexivity].
Qed.
Lemma word_rev v : sforall (fun c => negb (isSpaceByte c)) v = true -> sforall (fun c => negb (isSpaceByte c)) (revStr v EmptyString) = true.
Proof.
  assert (G : forall w acc, sforall (fun c => negb (isSpaceByte c)) w = true -> sforall (fun c => negb (isSpaceByte c)) acc = true ->
    sforall (fun c => negb (isSpaceByte c)) (revStr w acc) = true).
  { induction w as [|c w IH]; intros acc A B; [exact B|]. cbn in *. apply andb_true_iff in A. destruct A as [A1 A2].
    apply IH; [exact A2|]. cbn. rewrite A1. exact B. }
  intros H. apply G; [exact H|reflexivity].
Qed.
Lemma trim_line v : Word v -> trimSpace (v ++ newline) = v.
Proof.
  intros W. pose proof W as [N S]. unfold trimSpace. 
  assert (E : trimLeft (v ++ newline) = (v ++ newline)%string).
  { destruct v as [|c r]; [congruence|]. cbn in *. destruct (isSpaceByte c); [discriminate S|reflexivity]. }
  rewrite E. fold (rev' (v ++ newline)). rewrite rev_app. cbn [rev' newline revStr append trimLeft].
  change (isSpaceByte (ascii_of_nat 10)) with true. cbn iota.
  assert (R : Word (rev' v)).
  { split; [|exact (word_rev v S)]. intros X. apply N. rewrite <- (rev_rev v), X. reflexivity. }
  change (rev' newline ++ rev' v)%string with (String (ascii_of_nat 10) (rev' v)).
  cbn [trimLeft]. change (isSpaceByte (ascii_of_nat 10)) with true. cbn iota. rewrite (trimLeft_word _ R). apply rev_rev.
Qed.
Lemma line_not_empty v : String.eqb (v ++ newline) EmptyString = false.
Proof. destruct v; reflexivity. Qed.

(** The version a build injects is the version, wherever the tool is run; ... *)
Theorem C24_injected_version_is_kept : forall v c, v <> EmptyString -> toolVersion v c = v.
Proof. intros v c H. unfold toolVersion. destruct (String.eqb_spec v EmptyString); [contradiction|reflexivity]. Qed.
Print Assumptions C24_injected_version_is_kept.

(** ... otherwise it is the version required by the module of the working directory, ... *)
Theorem C24_required_version_is_used : forall v c, Words c -> c_module c = Requires v -> toolVersion "" c = v.
Proof.
  intros v c [W _] E. unfold toolVersion, inferRuntimeVersion, goList. cbn [String.eqb]. rewrite E, line_not_empty. cbn [negb].
  exact (trim_line v (W v E)).
Qed.
Print Assumptions C24_required_version_is_used.

(** ... otherwise the tag of the repository of the working directory, as in webrpc's own, or unknown: ... *)
Theorem C24_described_version_is_used : forall c, Words c -> (forall v, c_module c <> Requires v) ->
  (forall t, c_tag c = Some t -> toolVersion "" c = t) /\ (c_tag c = None -> toolVersion "" c = "unknown").
Proof.
  intros c [_ W] N. unfold toolVersion, inferRuntimeVersion. cbn [String.eqb].
  assert (G : goList c = EmptyString) by (unfold goList; destruct (c_module c) eqn:E; try reflexivity; destruct (N _ eq_refl)).
  rewrite G. cbn [String.eqb negb]. unfold gitDescribe. split.
  - intros t E. rewrite E, line_not_empty. cbn [negb]. exact (trim_line t (W t E)).
  - intros ->. reflexivity.
Qed.
Print Assumptions C24_described_version_is_used.

(** ... there always is one. *)
Theorem C24_version_is_never_empty : forall injected c, Words c -> toolVersion injected c <> EmptyString.
Proof.
  intros v c W. destruct (String.eqb_spec v EmptyString) as [->|N]; [|rewrite C24_injected_version_is_kept; assumption].
  destruct (c_module c) as [| |r|] eqn:E.
  3: { rewrite (C24_required_version_is_used r c W E). apply (proj1 W r E). }
  all: destruct (C24_described_version_is_used c W) as [D U]; [intros r; rewrite E; discriminate|];
    destruct (c_tag c) as [t|] eqn:T; [rewrite (D t eq_refl); apply (proj2 W t T)|rewrite (U eq_refl); discriminate].
Qed.
Print Assumptions C24_version_is_never_empty.

(** The header of an embedded generator names it, if it has no ";". *)
Theorem C24_header_names_the_tool : forall injected c name version v hash,
  (contains_byte "/" version = false /\ contains_byte ";" version = false) ->
  In name embedded -> version <> "" ->
  contains_byte ";" (toolVersion injected c) = false ->
  contains_byte ";" (sc_name v) = false -> contains_byte "@" (sc_name v) = false -> contains_byte ";" (sc_version v) = false ->
  contains_byte ";" hash = false ->
  let cg := codeGenOf ("github.com/webrpc/gen-" ++ name ++ "@" ++ version) in
  option_map gv_gen (parseGenVersions (webRPCGenHeader (HeaderVars (toolVersion injected c) (fst cg) (snd cg) (sc_name v) (sc_version v) hash))) =
  Some (toolVersion injected c).
Proof.
  intros injected c name version v hash H1 HN HV H2 H3 H4 H5 H6 cg.
  pose proof (header_round_trip (HeaderVars (toolVersion injected c) (fst cg) (snd cg) (sc_name v) (sc_version v) hash)) as R.
  destruct H1 as [Ha Hb]. unfold cg in *. rewrite codeGenOf_tag in * by (auto; now apply embedded_plain). cbn [fst snd] in *.
  rewrite R; cbn [hv_gen hv_codegen hv_codegenVersion hv_schema hv_schemaVersion hv_hash]; auto;
    destruct (embedded_plain name HN) as (A & B & C); assumption.
Qed.
Print Assumptions C24_header_names_the_tool.

(** "The version is that of the tool": a tool that was built without an injected version (go install, go run) claims, in
    some directory, any version one likes - the tag of an unrelated project, ... *)
Theorem C24_version_is_the_tools_refuted : forall v, Word v ->
  toolVersion "" (Cwd NoModule (Some v)) = v /\ toolVersion "" (Cwd (Requires v) None) = v /\
  Words (Cwd NoModule (Some v)) /\ Words (Cwd (Requires v) None).
Proof.
  intros v W. assert (A : Words (Cwd NoModule (Some v))) by (split; cbn; [discriminate|intros t [= <-]; exact W]).
  assert (B : Words (Cwd (Requires v) None)) by (split; cbn; [intros t [= <-]; exact W|discriminate]).
  split; [apply (proj1 (C24_described_version_is_used _ A ltac:(discriminate))); reflexivity|].
  split; [apply (C24_required_version_is_used v _ B); reflexivity|split; assumption].
Qed.
Print Assumptions C24_version_is_the_tools_refuted.

(** ... so the same tool writes different headers for the same schema and generator in two directories, ... *)
Theorem C24_same_header_in_every_directory_refuted : forall codegen cgv schema sv hash, exists c c',
  Words c /\ Words c' /\
  webRPCGenHeader (HeaderVars (toolVersion "" c) codegen cgv schema sv hash) <>
  webRPCGenHeader (HeaderVars (toolVersion "" c') codegen cgv schema sv hash).
Proof.
  intros g gv s sv h. exists (Cwd NoModule (Some "v1")), (Cwd NotRequired (Some "v2")).
  split; [split; cbn; [discriminate|intros t [= <-]; split; [discriminate|reflexivity]]|].
  split; [split; cbn; [discriminate|intros t [= <-]; split; [discriminate|reflexivity]]|].
  unfold webRPCGenHeader. change (toolVersion "" (Cwd NoModule (Some "v1"))) with "v1".
  change (toolVersion "" (Cwd NotRequired (Some "v2"))) with "v2". cbn [hv_gen]. intros X. discriminate X.
Qed.
Print Assumptions C24_same_header_in_every_directory_refuted.

(** ... and a project with a tag like "v1;a@b" (git allows it) makes it say that another generator was used. *)
Theorem C24_header_names_the_generator_everywhere_refuted : exists c, Words c /\
  option_map gv_codegen (parseGenVersions (webRPCGenHeader (HeaderVars (toolVersion "" c) "gen-golang" "v0.23.0" "example" "v1.0.0" "0")))
  = Some "gen-rust".
Proof.
  exists (Cwd NoModule (Some "v1;gen-rust@v9")). split.
  - split; cbn; [discriminate|intros t [= <-]; split; [discriminate|reflexivity]].
  - vm_compute. reflexivity.
Qed.
Print Assumptions C24_header_names_the_generator_everywhere_refuted.

Example C24_version_example :
  (* make install *) toolVersion "v0.31.1" (Cwd NotRequired (Some "shop-2.4")) = "v0.31.1" /\
  (* go tool in a project *) toolVersion "" (Cwd (Requires "v0.31.1") (Some "shop-2.4")) = "v0.31.1" /\
  (* go install, in a project *) toolVersion "" (Cwd NotRequired (Some "shop-2.4")) = "shop-2.4" /\
  (* go run in webrpc's repository *) toolVersion "" (Cwd Itself (Some "v0.31.0-6-g550333d")) = "v0.31.0-6-g550333d" /\
  toolVersion "" (Cwd NoModule None) = "unknown" /\
  Words (Cwd (Requires "v0.31.1") (Some "shop-2.4")).
Proof.
  repeat split; cbn in *; intros; congruence || (injection H as <-; reflexivity) || idtac.
  all: match goal with H : _ = _ |- _ => injection H as <- end; reflexivity.
Qed.
