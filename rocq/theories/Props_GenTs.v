(** C24: the readers of the Webrpc header in generated TypeScript code, against those in generated Go code. *)
From Verif Require Import Base BaseProofs Utf8 Gen GenProofs GenTs GenTsProofs.

(** Specification: a part of a header is a name, followed by "@version" or not. *)
Definition part (p : string * option string) : string :=
  match snd p with Some v => (fst p ++ "@" ++ v)%string | None => fst p end.
Definition version_of (p : string * option string) : string := match snd p with Some v => v | None => EmptyString end.
Definition plain (s : string) : Prop := contains_byte ";" s = false /\ contains_byte "@" s = false.
Definition plain_part (p : string * option string) : Prop := plain (fst p) /\ plain (version_of p).

Lemma part_no_semicolon p : plain_part p -> contains_byte ";" (part p) = false.
Proof.
  destruct p as [n [v|]]; intros [[A B] [C D]]; unfold part; cbn [fst snd version_of] in *; [|exact A].
  unfold contains_byte in *. rewrite sexists_app, A. cbn. exact C.
Qed.
Lemma part_split g c s : plain_part g -> plain_part c -> plain_part s ->
  split_byte ";" (part g ++ ";" ++ part c ++ ";" ++ part s) = [part g; part c; part s].
Proof.
  intros G C P. change (part g ++ ";" ++ part c ++ ";" ++ part s)%string
    with (part g ++ String ";" (part c ++ String ";" (part s)))%string.
  rewrite !split_byte_app by (apply part_no_semicolon; assumption).
  rewrite split_byte_none by (apply part_no_semicolon; assumption). reflexivity.
Qed.
Lemma part_js p : plain_part p -> jsPart (part p) = (fst p, version_of p).
Proof.
  destruct p as [n [v|]]; intros [[A B] [C D]]; unfold part; cbn [fst snd version_of] in *.
  - change (n ++ "@" ++ v)%string with (n ++ String "@" v)%string. rewrite (jsPart_cut _ n v) by (apply cut_app; exact B).
    rewrite untilAt_none by exact D. reflexivity.
  - apply jsPart_plain. exact B.
Qed.
Lemma part_cut p : plain_part p -> cut "@" (part p) = match snd p with Some v => Some (fst p, v) | None => None end.
Proof.
  destruct p as [n [v|]]; intros [[A B] [C D]]; unfold part; cbn [fst snd version_of] in *; [apply cut_app; exact B|].
  destruct (cut "@" n) as [[a b]|] eqn:E; [|reflexivity]. exfalso. apply cut_split in E. destruct E as (_ & ->).
  unfold contains_byte in B. rewrite sexists_app in B. cbn in B. destruct (sexists _ a); discriminate.
Qed.
Lemma parts_not_empty g c s : (part g ++ ";" ++ part c ++ ";" ++ part s)%string <> EmptyString.
Proof. destruct (part g); discriminate. Qed.

(** C24. The TypeScript reader of a header of three parts without ';' and '@' in them gives the versions and names in the
    parts, and "" for a version that is not there ... *)
Theorem C24_ts_reads_the_parts : forall g c s, plain_part g -> plain_part c -> plain_part s ->
  versionFromHeaderTs (Some (part g ++ ";" ++ part c ++ ";" ++ part s)%string) =
  GenVersions (version_of g) (fst c) (version_of c) (fst s) (version_of s).
Proof.
  intros g c s G C P. unfold versionFromHeaderTs.
  rewrite (proj2 (String.eqb_neq _ _) (parts_not_empty g c s)). unfold parseGenVersionsTs.
  rewrite part_split, !part_js by assumption. reflexivity.
Qed.
Print Assumptions C24_ts_reads_the_parts.

(** ... and the Go reader gives the same when each of the three has its version, and an error otherwise. *)
Theorem C24_go_wants_every_version : forall g c s, plain_part g -> plain_part c -> plain_part s ->
  versionFromHeaderGo (Some (part g ++ ";" ++ part c ++ ";" ++ part s)%string) =
  match snd g, snd c, snd s with
  | Some gv, Some cv, Some sv => Some (GenVersions gv (fst c) cv (fst s) sv)
  | _, _, _ => None
  end.
Proof.
  intros g c s G C P. unfold versionFromHeaderGo.
  rewrite (proj2 (String.eqb_neq _ _) (parts_not_empty g c s)). unfold parseGenVersions.
  rewrite part_split, !part_cut by assumption.
  destruct (snd g), (snd c), (snd s); reflexivity.
Qed.
Print Assumptions C24_go_wants_every_version.

(** The header of the committed TypeScript client (client.gen.ts 573) and the header of the committed Go server
    (server-go/example.gen.go 910) are such headers; the Go reader reads the second only. *)
Example committed_headers_are_parts :
  (plain_part ("webrpc", None) /\ plain_part ("gen-typescript", None) /\ plain_part ("node-ts", Some "v1.0.0")) /\
  "webrpc;gen-typescript;node-ts@v1.0.0"%string =
    (part ("webrpc", None) ++ ";" ++ part ("gen-typescript", None) ++ ";" ++ part ("node-ts", Some "v1.0.0"%string))%string /\
  versionFromHeaderTs (Some "webrpc;gen-typescript;node-ts@v1.0.0"%string) = GenVersions "" "gen-typescript" "" "node-ts" "v1.0.0" /\
  versionFromHeaderGo (Some "webrpc;gen-typescript;node-ts@v1.0.0"%string) = None /\
  versionFromHeaderTs (Some "webrpc@v0.30.0;gen-golang@unknown;node-ts@v1.0.0"%string) =
    GenVersions "v0.30.0" "gen-golang" "unknown" "node-ts" "v1.0.0" /\
  versionFromHeaderGo (Some "webrpc@v0.30.0;gen-golang@unknown;node-ts@v1.0.0"%string) =
    Some (GenVersions "v0.30.0" "gen-golang" "unknown" "node-ts" "v1.0.0").
Proof. repeat split; reflexivity. Qed.

(** C24. Whatever header the Go reader accepts, the TypeScript reader reads the same names, and of each version the part
    before its first '@' ... *)
Theorem C24_ts_reads_what_go_reads : forall header v, versionFromHeaderGo header = Some v ->
  let t := versionFromHeaderTs header in
  gv_codegen t = gv_codegen v /\ gv_schema t = gv_schema v /\
  (forall f, In f [gv_gen; gv_codegenVersion; gv_schemaVersion] ->
     contains_byte "@" (f t) = false /\ exists rest, f v = (f t ++ rest)%string /\ (rest = EmptyString \/ exists r, rest = String "@" r)).
Proof.
  intros header v H t. unfold t. rewrite (ts_of_go_header _ _ H). cbn [gv_codegen gv_schema]. split; [reflexivity|split; [reflexivity|]].
  assert (U : forall s, contains_byte "@" (untilAt s) = false /\
                        exists rest, s = (untilAt s ++ rest)%string /\ (rest = EmptyString \/ exists r, rest = String "@" r)).
  { intros s. unfold untilAt. destruct (cut "@" s) as [[a b]|] eqn:E.
    - apply cut_split in E. destruct E as (A & B). split; [exact A|]. exists (String "@" b). split; [exact B|right; exists b; reflexivity].
    - split; [|exists EmptyString; split; [|left; reflexivity]].
      + destruct (split_untilAt s) as (r & Hr). pose proof (split_byte_no "@" s (untilAt s)) as N. rewrite Hr in N.
        assert (X : untilAt s = s) by (unfold untilAt; rewrite E; reflexivity). rewrite X in N. apply N. left. reflexivity.
      + clear. induction s as [|c s IH]; [reflexivity|cbn; f_equal; exact IH]. }
  intros f [<-|[<-|[<-|[]]]]; cbn [gv_gen gv_codegenVersion gv_schemaVersion]; apply U.
Qed.
Print Assumptions C24_ts_reads_what_go_reads.

(** ... so they read alike when the versions have no '@'. *)
Theorem C24_readers_agree : forall header v, versionFromHeaderGo header = Some v ->
  contains_byte "@" (gv_gen v) = false -> contains_byte "@" (gv_codegenVersion v) = false -> contains_byte "@" (gv_schemaVersion v) = false ->
  versionFromHeaderTs header = v.
Proof.
  intros header v H A B C. rewrite (ts_of_go_header _ _ H), !untilAt_none by assumption. destruct v; reflexivity.
Qed.
Print Assumptions C24_readers_agree.

(** They do not always read alike: a schema version with an '@' is cut short by the TypeScript reader. *)
Theorem C24_readers_agree_refuted : exists h v,
  contains_byte ";" (hv_schemaVersion h) = false /\
  versionFromHeaderGo (Some (webRPCGenHeader h)) = Some v /\ gv_schemaVersion v = hv_schemaVersion h /\
  gv_schemaVersion (versionFromHeaderTs (Some (webRPCGenHeader h))) <> hv_schemaVersion h.
Proof.
  exists (HeaderVars "v0.31.0" "gen-golang" "v0.23.1" "Test" "v1@beta" "abc"). eexists.
  split; [reflexivity|]. split; [vm_compute; reflexivity|]. split; [reflexivity|]. vm_compute. discriminate.
Qed.
Print Assumptions C24_readers_agree_refuted.

(** C24. The TypeScript reader of the header that the tool writes gives back what was written, when no component contains
    ';' or '@'. *)
Theorem C24_ts_header_round_trip : forall h,
  plain (hv_gen h) -> plain (hv_codegen h) -> plain (hv_codegenVersion h) -> plain (hv_schema h) -> plain (hv_schemaVersion h) -> plain (hv_hash h) ->
  versionFromHeaderTs (Some (webRPCGenHeader h)) =
  GenVersions (hv_gen h) (hv_codegen h)
    (if String.eqb (hv_codegenVersion h) "" then "unknown" else hv_codegenVersion h)
    (hv_schema h)
    (if String.eqb (hv_schemaVersion h) "" then ("v0.0.0-" ++ hv_hash h)%string else hv_schemaVersion h).
Proof.
  intros h A B C D E F. apply C24_readers_agree.
  - unfold versionFromHeaderGo. replace (String.eqb (webRPCGenHeader h) "") with false by reflexivity.
    apply header_round_trip; first [apply A|apply B|apply C|apply D|apply E|apply F].
  - apply A.
  - cbn [gv_codegenVersion]. destruct (String.eqb (hv_codegenVersion h) ""); [reflexivity|apply C].
  - cbn [gv_schemaVersion]. destruct (String.eqb (hv_schemaVersion h) ""); [|apply E].
    unfold contains_byte. rewrite sexists_app. apply F.
Qed.
Print Assumptions C24_ts_header_round_trip.

Example ts_round_trip_case : let h := HeaderVars "v0.31.0" "gen-typescript" "v0.22.0" "Test" "" "0a1b" in
  (plain (hv_gen h) /\ plain (hv_codegen h) /\ plain (hv_codegenVersion h) /\ plain (hv_schema h) /\ plain (hv_schemaVersion h) /\ plain (hv_hash h)) /\
  versionFromHeaderTs (Some (webRPCGenHeader h)) = GenVersions "v0.31.0" "gen-typescript" "v0.22.0" "Test" "v0.0.0-0a1b".
Proof. repeat split; reflexivity. Qed.

(** C24. A header that is absent, empty or of fewer than three parts: every field is empty in TypeScript and the Go reader
    reports an error. *)
Theorem C24_short_headers : forall header,
  match header with
  | None => True
  | Some h => contains_byte ";" h = false \/
              exists a b, h = (a ++ String ";" b)%string /\ contains_byte ";" a = false /\ contains_byte ";" b = false
  end ->
  versionFromHeaderTs header = GenVersions "" "" "" "" "" /\ versionFromHeaderGo header = None.
Proof.
  intros [h|] H; [|split; reflexivity]. unfold versionFromHeaderTs, versionFromHeaderGo.
  destruct (String.eqb h ""); [split; reflexivity|]. unfold parseGenVersionsTs, parseGenVersions.
  destruct H as [H|(a & b & -> & A & B)].
  - rewrite split_byte_none by exact H. split; reflexivity.
  - rewrite split_byte_app, split_byte_none by assumption. split; reflexivity.
Qed.
Print Assumptions C24_short_headers.
