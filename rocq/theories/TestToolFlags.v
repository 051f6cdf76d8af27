(** Proofs for C63: the flags of webrpc-test (TestTool.v). *)
From Verif Require Import Base Cli CliProofs TestTool.

(** ** What the words say *)

(** The first argument [arg] turns the mode [m] on: -m or --m, or with =w for a word for true. *)
Definition Chooses (arg m : string) : Prop :=
  exists d, (d = "-" \/ d = "--") /\
  (arg = d ++ m \/ exists w, In w ["1"; "t"; "T"; "TRUE"; "true"; "True"] /\ arg = d ++ m ++ "=" ++ w)%string.

Definition modes : list string :=
  ["client"; "server"; "waitForServer"; "version"; "print-schema"; "printRIDL"; "printJSON"].

(** Arguments -k=v or --k=v for the settings (k, v); then nothing, "--", or an argument that is no flag. *)
Definition Settings (d : string) (settings : list (string * string)) (tail args : list string) : Prop :=
  (d = "-" \/ d = "--") /\ args = map (fun '(k, v) => (d ++ k ++ "=" ++ v)%string) settings ++ tail /\
  match tail with [] => True | t :: _ => t = "--" \/ has_prefix "-" t = false \/ t = "-" end.

(** the value of the last setting of [k] *)
Fixpoint lastOf (settings : list (string * string)) (k default : string) : string :=
  match settings with
  | [] => default
  | (k', v) :: r => lastOf r k (if String.eqb k k' then v else default)
  end.

(** ** Proofs *)

Lemma boolWords_true w : assoc w boolWords = Some true -> In w ["1"; "t"; "T"; "TRUE"; "true"; "True"].
Proof.
  intros H. unfold boolWords in H. cbn [assoc] in H.
  repeat (match type of H with (if String.eqb ?a ?b then _ else _) = _ => destruct (String.eqb_spec a b) as [EQ|_] end; cbv iota in H;
          [try discriminate H; rewrite EQ; cbn [In]; auto 12|]). discriminate H.
Qed.

Lemma assoc_modes n b : assoc n modeFlags = Some b -> b = true /\ In n modes.
Proof.
  intros H. unfold modeFlags in H. cbn [assoc] in H.
  repeat (match type of H with (if String.eqb ?a ?b then _ else _) = _ => destruct (String.eqb_spec a b) as [EQ|_] end; cbv iota in H;
          [injection H as <-; rewrite EQ; split; [reflexivity|cbn [modes In]; auto 12]|]). discriminate H.
Qed.

Lemma parse_first valid arg :
  match parseSet modeFlags valid 1 [arg] [] with
  | FlagErr _ _ => True
  | Flags vals _ => vals = [] \/ exists m, In m modes /\ (Chooses arg m /\ vals = [(m, "true")] \/ vals = [(m, "false")])
  end.
Proof.
  cbn [parseSet]. destruct arg as [|a s]; [left; reflexivity|].
  destruct (ascii_dec a "-") as [->|NA].
  2: { destruct a as [[] [] [] [] [] [] [] []]; try (left; reflexivity); exfalso; apply NA; reflexivity. }
  cbv iota beta. destruct s as [|c s]; [left; reflexivity|].
  destruct (String.eqb _ "--") eqn:DD; [left; reflexivity|].
  set (name0 := if Ascii.eqb c "-" then s else String c s). cbv zeta.
  assert (E : exists d, (d = "-" \/ d = "--") /\ String "-" (String c s) = (d ++ name0)%string).
  { subst name0. destruct (Ascii.eqb_spec c "-") as [->|N]; [exists "--"|exists "-"]; split; auto. }
  clearbody name0. destruct E as (d & D & E). rewrite E. clear E DD. destruct name0 as [|x y]; [exact I|].
  destruct (_ || _); [exact I|].
  destruct (cut "=" (String x y)) as [[name value] has] eqn:C.
  destruct (assoc name modeFlags) as [b|] eqn:A; [|destruct (_ || _); exact I].
  apply assoc_modes in A as [-> M]. destruct has.
  - apply cut_inv in C as [C _]. destruct (assoc value boolWords) as [[]|] eqn:W; [| |exact I].
    + right. exists name. split; [exact M|]. left. split; [|reflexivity].
      exists d. split; [exact D|]. right. exists value. split; [apply boolWords_true, W|]. rewrite C. reflexivity.
    + right. exists name. split; [exact M|]. right. reflexivity.
  - apply cut_inv_none in C as (-> & _ & _). right. exists (String x y). split; [exact M|]. left.
    split; [|reflexivity]. exists d. split; [exact D|]. left. reflexivity.
Qed.

Lemma chooses_parse valid arg m : In m modes -> Chooses arg m -> parseSet modeFlags valid 1 [arg] [] = Flags [(m, "true")] [].
Proof.
  intros M (d & D & A). cbn [modes In] in M.
  destruct D as [->| ->], A as [->|(w & W & ->)]; try (cbn [In] in W);
  repeat destruct M as [<-|M]; try (destruct M; fail); try reflexivity;
  repeat destruct W as [<-|W]; try (destruct W; fail); reflexivity.
Qed.

(** ** Settings *)

Lemma setting_step defs valid n d k v r vals :
  d = "-" \/ d = "--" -> assoc k defs = Some false -> contains_byte "=" k = false -> k <> "" -> has_prefix "-" k = false ->
  valid k v = true ->
  parseSet defs valid (S n) ((d ++ k ++ "=" ++ v)%string :: r) vals = parseSet defs valid n r (mapSet k v vals).
Proof.
  intros D A NE NN ND V. destruct k as [|c k]; [congruence|].
  assert (C : c <> "-"%char) by (intros ->; discriminate ND).
  assert (Q : c <> "="%char) by (intros ->; discriminate NE).
  assert (CUT : cut "=" (String c k ++ "=" ++ v) = (String c k, v, true)) by (apply (cut_found "=" (String c k) v NE)).
  apply Ascii.eqb_neq in C as C', Q as Q'.
  destruct D as [->| ->].
  - change ("-" ++ String c k ++ "=" ++ v)%string with (String "-" (String c (k ++ "=" ++ v))).
    change (String c k ++ "=" ++ v)%string with (String c (k ++ "=" ++ v)) in CUT.
    cbn [parseSet]. destruct (String.eqb_spec (String "-" (String c (k ++ "=" ++ v))) "--") as [[= -> _]|_]; [congruence|].
    rewrite C'. cbv zeta iota beta. rewrite C', Q'. cbn [orb]. rewrite CUT, A, V. reflexivity.
  - change ("--" ++ String c k ++ "=" ++ v)%string with (String "-" (String "-" (String c (k ++ "=" ++ v)))).
    change (String c k ++ "=" ++ v)%string with (String c (k ++ "=" ++ v)) in CUT.
    cbn [parseSet]. cbn [String.eqb Ascii.eqb Bool.eqb]. rewrite C', Q'. cbn [orb]. rewrite CUT, A, V. reflexivity.
Qed.

Definition plainNames (defs : list (string * bool)) : Prop :=
  forall k b, assoc k defs = Some b -> b = false /\ contains_byte "=" k = false /\ k <> "" /\ has_prefix "-" k = false.

Lemma settings_parse defs valid d settings tail args : plainNames defs -> Settings d settings tail args ->
  (forall k v, In (k, v) settings -> In k (map fst defs) /\ valid k v = true) ->
  exists rest vals, parseSet defs valid (List.length args) args [] = Flags vals rest /\
    forall k default, flagValue vals k default = lastOf settings k default.
Proof.
  intros PN (D & -> & T) V.
  enough (H : forall vals, exists rest vals', parseSet defs valid (List.length (map (fun '(k, v) => (d ++ k ++ "=" ++ v)%string) settings ++ tail))
      (map (fun '(k, v) => (d ++ k ++ "=" ++ v)%string) settings ++ tail) vals = Flags vals' rest /\
    forall k default, flagValue vals' k default = lastOf settings k (flagValue vals k default)).
  { destruct (H []) as (rest & vals & E & L). exists rest, vals. split; [exact E|]. intros k default. apply L. }
  induction settings as [|[k v] settings IH]; intros vals.
  - cbn [map app lastOf]. destruct tail as [|t tail]; [exists [], vals; split; reflexivity|].
    destruct T as [->|[T| ->]].
    + exists tail, vals. split; reflexivity.
    + destruct t as [|c t]; [exists ("" :: tail), vals; split; reflexivity|].
      exists (String c t :: tail), vals. split; [|reflexivity]. cbn [List.length parseSet].
      destruct (ascii_dec c "-") as [->|NA]; [discriminate T|].
      destruct c as [[] [] [] [] [] [] [] []]; try reflexivity. exfalso. apply NA. reflexivity.
    + exists ("-" :: tail), vals. split; reflexivity.
  - destruct (V k v (or_introl eq_refl)) as [K W]. apply assoc_In_fst in K as [b A].
    destruct (PN k b A) as (-> & NE & NN & ND).
    destruct (IH (fun k' v' I => V k' v' (or_intror I)) (mapSet k v vals)) as (rest & vals' & E & L).
    exists rest, vals'. split.
    + cbn [map app List.length]. rewrite (setting_step defs valid _ d k v _ vals D A NE NN ND W). exact E.
    + intros k' default. rewrite L. cbn [lastOf]. f_equal. unfold flagValue. rewrite assoc_mapSet.
      destruct (String.eqb k' k); reflexivity.
Qed.

Lemma plain_url : plainNames clientFlags.
Proof. intros k b H. unfold clientFlags in H. cbn [assoc] in H. destruct (String.eqb_spec k "url") as [->|_]; [|discriminate H].
  injection H as <-. repeat split; discriminate. Qed.
Lemma plain_server : plainNames serverFlags.
Proof. intros k b H. unfold serverFlags in H. cbn [assoc] in H. destruct (String.eqb_spec k "port") as [->|_];
  [|destruct (String.eqb_spec k "timeout") as [->|_]; [|discriminate H]]; injection H as <-; repeat split; discriminate. Qed.
Lemma plain_wait : plainNames waitFlags.
Proof. intros k b H. unfold waitFlags in H. cbn [assoc] in H. destruct (String.eqb_spec k "url") as [->|_];
  [|destruct (String.eqb_spec k "timeout") as [->|_]; [|discriminate H]]; injection H as <-; repeat split; discriminate. Qed.
