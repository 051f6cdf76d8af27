From Verif Require Import Base BaseProofs Utf8 Gen GenProofs GenTs.

(** the part of a string before its first '@' *)
Definition untilAt (s : string) : string := match cut "@"%char s with Some (a, _) => a | None => s end.

Lemma untilAt_none s : contains_byte "@" s = false -> untilAt s = s.
Proof.
  intros H. unfold untilAt, cut. destruct (index_byte "@" s) as [p|] eqn:E; [|reflexivity]. exfalso.
  revert p E. induction s as [|c s IH]; intros p E; [discriminate|].
  unfold contains_byte in H. cbn in H. cbn in E. destruct (Ascii.eqb c "@"); [discriminate|].
  destruct (index_byte "@" s) eqn:E'; [|discriminate]. apply (IH H _ eq_refl).
Qed.

Lemma split_untilAt s : exists r, split_byte "@" s = untilAt s :: r.
Proof.
  unfold untilAt, cut. induction s as [|c s (r & IH)]; [exists []; reflexivity|].
  cbn [split_byte index_byte]. destruct (Ascii.eqb c "@") eqn:E.
  - eexists. cbn. reflexivity.
  - rewrite IH. destruct (index_byte "@" s) as [p|]; eexists; cbn; reflexivity.
Qed.

Lemma cut_split s a b : cut "@" s = Some (a, b) -> contains_byte "@" a = false /\ s = (a ++ String "@" b)%string.
Proof.
  revert a b. induction s as [|c s IH]; intros a b; unfold cut; cbn; [discriminate|].
  destruct (Ascii.eqb_spec c "@") as [->|N].
  - cbn. intros X. injection X as <- <-. split; reflexivity.
  - unfold cut in IH. destruct (index_byte "@" s) as [p|]; [|discriminate]. cbn. intros X. injection X as <- <-.
    destruct (IH _ _ eq_refl) as (A & B). unfold contains_byte in *. cbn. split.
    + destruct (Ascii.eqb_spec c "@"); [contradiction|exact A].
    + f_equal. exact B.
Qed.

Lemma jsPart_cut s a b : cut "@" s = Some (a, b) -> jsPart s = (a, untilAt b).
Proof.
  intros H. apply cut_split in H. destruct H as (A & ->). unfold jsPart. rewrite split_byte_app by exact A.
  destruct (split_untilAt b) as (r & ->). reflexivity.
Qed.

Lemma jsPart_plain s : contains_byte "@" s = false -> jsPart s = (s, EmptyString).
Proof. intros H. unfold jsPart. rewrite split_byte_none by exact H. reflexivity. Qed.

Lemma ts_of_go header v : parseGenVersions header = Some v ->
  parseGenVersionsTs header = GenVersions (untilAt (gv_gen v)) (gv_codegen v) (untilAt (gv_codegenVersion v)) (gv_schema v) (untilAt (gv_schemaVersion v)).
Proof.
  unfold parseGenVersions, parseGenVersionsTs. destruct (split_byte ";" header) as [|v0 [|v1 [|v2 r]]]; try discriminate.
  destruct (cut "@" v0) as [[x g]|] eqn:E0; [|discriminate].
  destruct (cut "@" v1) as [[tn tv]|] eqn:E1; [|discriminate].
  destruct (cut "@" v2) as [[sn sv]|] eqn:E2; [|discriminate]. intros X. injection X as <-.
  rewrite (jsPart_cut _ _ _ E0), (jsPart_cut _ _ _ E1), (jsPart_cut _ _ _ E2). reflexivity.
Qed.

Lemma ts_of_go_header header v : versionFromHeaderGo header = Some v ->
  versionFromHeaderTs header = GenVersions (untilAt (gv_gen v)) (gv_codegen v) (untilAt (gv_codegenVersion v)) (gv_schema v) (untilAt (gv_schemaVersion v)).
Proof.
  unfold versionFromHeaderGo, versionFromHeaderTs. destruct header as [h|]; [|discriminate].
  destruct (String.eqb h ""); [discriminate|]. apply ts_of_go.
Qed.
