(** C51: which file an import or the -schema flag names. Theorems only. Specification: PathSpec.v, LoadSpec.v. *)
From Verif Require Import Base BaseProofs Ast Parser Schema SchemaJson Uri Ridl Main LoadSpec LoadProofs PathSpec PathProofs PropsLoadAux
  TypeSpec ValidateSpec ValidateProofs ValidateIdem PropsValidateAux Props_Validate PropsSchemaJsonAux.

(** C51. An import is followed from the directory of the importing file, whatever the way its path is spelled. *)
Theorem C51_imports_are_relative_to_the_importing_file : forall dir f i es t,
  Forall Name (dir ++ [f]) -> Elements (i_path i) es -> Walk false dir es t -> t <> [] ->
  importTarget (join "/" (dir ++ [f])) i = join "/" t /\ validPath (join "/" t) = true.
Proof.
  intros dir f i es t HN HE W Ht. apply elements_unique in HE. subst es. assert (HD : Forall Name dir) by now apply Forall_app in HN.
  split; [|apply validPath_names; [exact Ht|]; eapply walk_names; eassumption].
  unfold importTarget. rewrite pathDir_names by exact HN. rewrite pathJoin_names by exact HD.
  rewrite (walk_clean _ _ _ _ W HD) by discriminate. unfold showRel. destruct t; [congruence|reflexivity].
Qed.
Print Assumptions C51_imports_are_relative_to_the_importing_file.

Example C51_example_import :
  importTarget "proto/v1/api.ridl" (Imp "../common/./types.ridl" []) = "proto/common/types.ridl" /\
  Walk false ["proto"; "v1"] [".."; "common"; "."; "types.ridl"] ["proto"; "common"; "types.ridl"].
Proof.
  split; [reflexivity|]. change ["proto"; "v1"] with (["proto"] ++ ["v1"]). apply WalkUp.
  apply WalkDown; [now repeat split|]. apply WalkStay; [now right|]. apply WalkDown; [now repeat split|]. constructor.
Qed.

(** C51. A path either leads to a file or directory below the top directory, or out of it. *)
Theorem C51_every_path_leads_somewhere_or_out : forall dir p es, Elements p es ->
  (exists t, Walk false dir es t) \/ Escapes dir es.
Proof.
  intros dir p es HE. apply walk_or_escape. apply elements_unique in HE. subst es. apply Forall_forall. intros x Hx.
  eapply split_byte_no; eassumption.
Qed.
Print Assumptions C51_every_path_leads_somewhere_or_out.

(** C51. A file whose import leads out of the file system it was loaded from is rejected. *)
Theorem C51_imports_cannot_leave_the_tree : forall fs u dir f nodes i es,
  Forall Name (dir ++ [f]) -> Source fs (join "/" (dir ++ [f])) nodes -> In i (imports nodes) ->
  Elements (i_path i) es -> Escapes dir es ->
  validPath (importTarget (join "/" (dir ++ [f])) i) = false /\
  forall s, loadFile fs u (join "/" (dir ++ [f])) <> LOk s.
Proof.
  intros fs u dir f nodes i es HN HS Hi HE X. apply elements_unique in HE. subst es.
  assert (HD : Forall Name dir) by now apply Forall_app in HN.
  assert (V : validPath (importTarget (join "/" (dir ++ [f])) i) = false).
  { unfold importTarget. rewrite pathDir_names by exact HN. rewrite pathJoin_names by exact HD.
    apply escaped_invalid; [now apply escape_clean|]. apply clean_no_slash.
    - intros x Hx. eapply split_byte_no; eassumption.
    - intros x Hx. apply in_rev in Hx. eapply names_no_slash; eassumption. }
  split; [exact V|]. intros s L. apply loadFile_iff in L.
  destruct (LoadsTo_import _ _ _ _ (importTarget (join "/" (dir ++ [f])) i) L) as (s' & L'); [now exists nodes, i|].
  inversion L' as [q nodes' imps s'' [HV _] _ _]. congruence.
Qed.
Print Assumptions C51_imports_cannot_leave_the_tree.

Example C51_example_escape : exists fs nodes,
  Source fs "lib/a.ridl" nodes /\ In (Imp "../../b.ridl" []) (imports nodes) /\
  Elements "../../b.ridl" [".."; ".."; "b.ridl"] /\ Escapes ["lib"] [".."; ".."; "b.ridl"].
Proof.
  exists [("lib/a.ridl", lines ["webrpc = v1"; "name = a"; "version = v1"; "basepath = /"; "import ""../../b.ridl"""])].
  eexists. split; [split; [reflexivity|]; eexists; split; [reflexivity|vm_compute; reflexivity]|].
  split; [left; reflexivity|]. split.
  - apply (ElemCons ".." "../b.ridl"); [reflexivity|]. apply (ElemCons ".." "b.ridl"); [reflexivity|]. now constructor.
  - exists [".."], ["b.ridl"]. split; [reflexivity|]. apply (WalkUp false [] "lib"). constructor.
Qed.

(** C51. Every import of a file that loads leads to an existing file. *)
Theorem C51_imports_of_a_loaded_file_exist : forall fs u dir f nodes i es s,
  Forall Name (dir ++ [f]) -> assoc "." fs = None -> loadFile fs u (join "/" (dir ++ [f])) = LOk s ->
  Source fs (join "/" (dir ++ [f])) nodes -> In i (imports nodes) -> Elements (i_path i) es ->
  exists t text s', Walk false dir es t /\ assoc (join "/" t) fs = Some text /\ loadFile fs u (join "/" t) = LOk s'.
Proof.
  intros fs u dir f nodes i es s HN Hdot L HS Hi HE.
  destruct (C51_every_path_leads_somewhere_or_out dir _ _ HE) as [(t & W)|X].
  2:{ exfalso. destruct (C51_imports_cannot_leave_the_tree fs u dir f nodes i es HN HS Hi HE X) as [_ N]. now apply (N s). }
  apply loadFile_iff in L. destruct (LoadsTo_import _ _ _ _ (importTarget (join "/" (dir ++ [f])) i) L) as (s' & L'); [now exists nodes, i|].
  pose proof L' as L2. inversion L2 as [q nodes' imps s'' [HV (src & A & _)] _ _]; subst.
  assert (Ht : t <> []).
  { intros ->. apply elements_unique in HE. subst es. assert (HD : Forall Name dir) by now apply Forall_app in HN.
    revert A. unfold importTarget. rewrite pathDir_names by exact HN. rewrite pathJoin_names by exact HD.
    rewrite (walk_clean _ _ _ _ W HD) by discriminate. cbn [showRel]. congruence. }
  destruct (C51_imports_are_relative_to_the_importing_file dir f i es t HN HE W Ht) as [E _]. rewrite E in A, L'.
  exists t, src, s'. split; [exact W|]. split; [exact A|]. now apply loadFile_iff.
Qed.
Print Assumptions C51_imports_of_a_loaded_file_exist.

(** C51. An import with an absolute path is followed from the importing file's directory as well. *)
Theorem C51_absolute_import_refuted : exists fs nodes e k,
  Source fs "a/main.ridl" nodes /\ imports nodes = [Imp "/a/types.ridl" []] /\
  (exists s, loadFile fs goUriOk "a/types.ridl" = LOk s) /\
  loadFile fs goUriOk "a/main.ridl" = LErr e k /\ e = ENoFile "a/a/types.ridl".
Proof.
  exists [("a/main.ridl", lines ["webrpc = v1"; "name = a"; "version = v1"; "basepath = /"; "import ""/a/types.ridl"""]);
          ("a/types.ridl", lines ["webrpc = v1"; "name = a"; "version = v1"; "basepath = /"; "struct T"; " - f: string"])].
  eexists _, _, _. split; [split; [reflexivity|]; eexists; split; [reflexivity|vm_compute; reflexivity]|].
  split; [reflexivity|]. split; [eexists; vm_compute; reflexivity|]. split; [vm_compute; reflexivity|reflexivity].
Qed.
Print Assumptions C51_absolute_import_refuted.

(** C51. The schema file named on the command line: an absolute path is followed from the root, a relative
    one from the working directory; its extension decides how it is read. *)
Theorem C51_schema_file_is_found_and_read : forall fs u c p es t b e,
  Forall Name c -> Elements p es -> Walk true (if has_prefix "/" p then [] else c) es (t ++ [b]) -> Extension b e ->
  let file := join "/" (t ++ [b]) in
  let outcome := parseSchemaFile fs u ("/" ++ join "/" c) p in
  (e = ".json" -> forall s, outcome = Ok s <-> exists text, assoc file fs = Some text /\ parseSchemaJSON u text = Ok s) /\
  (e = ".ridl" -> forall s, outcome = Ok s <-> LoadsTo fs u file s) /\
  (e <> ".json" -> e <> ".ridl" -> exists msg, outcome = Err msg).
Proof.
  intros fs u c p es t b e HN HE W X file outcome. apply elements_unique in HE. subst es.
  assert (A : pathAbs ("/" ++ join "/" c) p = ("/" ++ file)%string /\ Forall Name (t ++ [b])).
  { destruct (has_prefix "/" p) eqn:H; (split; [|eapply walk_names; [exact W|]; auto]).
    - now apply pathAbs_absolute.
    - now apply pathAbs_relative. }
  destruct A as [A HT]. unfold outcome, parseSchemaFile. rewrite A. change (drop 1 ("/" ++ file)) with file.
  assert (PE : pathExt ("/" ++ file) = e).
  { unfold pathExt, file. rewrite last_split_join by exact HT. now apply extension_iff. }
  rewrite PE. clear PE X. split; [intros ->; intros s; split|split; [intros ->; intros s; split|]].
  - intros O. cbn in O. destruct (assoc file fs) as [text|]; [eauto|discriminate].
  - intros (text & H1 & H2). cbn. now rewrite H1.
  - intros O. cbn in O. apply loadFile_iff. destruct (loadFile fs u file); congruence.
  - intros L. cbn. apply loadFile_iff in L. now rewrite L.
  - intros N1 N2. apply String.eqb_neq in N1, N2. rewrite N1, N2. eauto.
Qed.
Print Assumptions C51_schema_file_is_found_and_read.

(** every path given on the command line leads somewhere, and every name has one extension *)
Theorem C51_schema_path_leads_somewhere : forall c p es, Elements p es -> exists t, Walk true c es t.
Proof.
  intros c p es HE. apply walk_top_total. apply elements_unique in HE. subst es. apply Forall_forall. intros x Hx.
  eapply split_byte_no; eassumption.
Qed.
Print Assumptions C51_schema_path_leads_somewhere.

Theorem C51_extension_is_unique : forall b, exists e, Extension b e /\ forall e', Extension b e' -> e' = e.
Proof.
  intros b. eexists. split; [apply extension_iff; reflexivity|]. intros e' H. apply extension_iff in H. now rewrite <- H.
Qed.
Print Assumptions C51_extension_is_unique.

Example C51_example_schema_flag :
  Walk true ["home"; "me"] [".."; ".."; ".."; "srv"; "api.v1.ridl"] (["srv"] ++ ["api.v1.ridl"]) /\
  Extension "api.v1.ridl" ".ridl" /\
  pathAbs "/home/me" "../../../srv/api.v1.ridl" = "/srv/api.v1.ridl".
Proof.
  split; [|split; [apply (ExtSome "api.v1" "ridl"); reflexivity|reflexivity]].
  apply (WalkUp true ["home"] "me"). apply (WalkUp true [] "home"). apply WalkTop; [reflexivity|].
  apply WalkDown; [now repeat split|]. apply WalkDown; [now repeat split|]. constructor.
Qed.

(** C14. Every schema that was read from a file, RIDL or JSON, has passed validation. *)
Theorem C14_schemas_of_files_are_well_formed : forall fs u cwd p s,
  parseSchemaFile fs u cwd p = Ok s -> SchemaOk ResolvedOrIncomplete s.
Proof. intros fs u cwd p s H. apply parseSchemaFile_inv in H as (s0 & H). eapply validate_ok; exact H. Qed.
Print Assumptions C14_schemas_of_files_are_well_formed.

(** C09. In a schema read from RIDL a type name, whatever its case, denotes one type. *)
Theorem C09_type_names_of_ridl_files_are_unique : forall fs u p s, loadFile fs u p = LOk s ->
  NoDup (map (fun t => to_lower (t_name t)) (sc_types s)) /\
  forall t, In t (sc_types s) -> t_name t <> "" /\ startsWithUpper (t_name t) = true.
Proof.
  intros fs u p s H. apply loaded_facts in H as [(s0 & V) N].
  assert (N0 : NoDup (map t_id (sc_types s0))).
  { destruct (validate_same _ _ _ V) as (_ & _ & _ & HT & _). assert (E : map t_id (sc_types s0) = map t_id (sc_types s)); [|now rewrite E].
    clear - HT. induction HT as [|a b l l' (Hid & _) _ IH]; [reflexivity|]. cbn [map]. now rewrite Hid, IH. }
  destruct (C09_type_names_are_unique _ _ _ V N0) as [A B]. split; [exact A|]. intros t Ht. destruct (B t Ht) as (B1 & B2 & _). auto.
Qed.
Print Assumptions C09_type_names_of_ridl_files_are_unique.
