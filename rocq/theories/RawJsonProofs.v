(** The reader of literal texts ([parseRaw]) reads back what the indenting printer ([printI]) writes. *)
From Verif Require Import Base BaseProofs Utf8 Utf8Proofs Json JsonProofs SchemaJson.

(** [raw] is the text of a string literal that denotes [s] *)
Definition LitFor (raw s : string) : Prop :=
  forall n rest, String.length raw < n -> readStr n (raw ++ String (byte_of_N 34) rest) = Some (s, rest).
Definition Lit (raw : string) : Prop := exists s, LitFor raw s.

Inductive JLit : json -> Prop :=
| LtNull : JLit JNull
| LtBool b : JLit (JBool b)
| LtNum l : NumLit l -> JLit (JNum l)
| LtStr s : Lit s -> JLit (JStr s)
| LtArr l : (forall x, In x l -> JLit x) -> JLit (JArr l)
| LtObj l : (forall k x, In (k, x) l -> Lit k /\ JLit x) -> JLit (JObj l).

Lemma unq_lit raw s : LitFor raw s -> unq raw = s.
Proof. intros H. unfold unq, unquoteLit, quoteC. rewrite (H (S (S (String.length raw))) EmptyString) by lia. reflexivity. Qed.
Lemma unquoteLit_lit raw s : LitFor raw s -> unquoteLit raw = Some s.
Proof. intros H. unfold unquoteLit, quoteC. rewrite (H (S (S (String.length raw))) EmptyString) by lia. reflexivity. Qed.

Lemma take_app a b : take (String.length a) (a ++ b) = a.
Proof. induction a as [|c a IH]; cbn [String.length append take]; [destruct b; reflexivity|now rewrite IH]. Qed.

Lemma readLit_lit raw rest : Lit raw -> readLit (raw ++ String (byte_of_N 34) rest) = Some (raw, rest).
Proof.
  intros [s H]. unfold readLit. rewrite H by (rewrite slength_app; cbn [String.length]; lia).
  f_equal. f_equal. rewrite slength_app. cbn [String.length].
  replace (String.length raw + S (String.length rest) - String.length rest - 1) with (String.length raw) by lia.
  apply take_app.
Qed.

(** ** the printer *)
Fixpoint elemsI (d : nat) (l : list json) : string :=
  match l with
  | [] => EmptyString
  | x :: r => ("," ++ newline d ++ printI d x ++ elemsI d r)%string
  end.
Fixpoint membersI (d : nat) (l : list (string * json)) : string :=
  match l with
  | [] => EmptyString
  | (k, x) :: r => ("," ++ newline d ++ quoted k ++ ": " ++ printI d x ++ membersI d r)%string
  end.

Lemma printI_arr d x l : printI d (JArr (x :: l)) =
  ("[" ++ newline (S d) ++ printI (S d) x ++ elemsI (S d) l ++ newline d ++ "]")%string.
Proof.
  cbn [printI]. change ("" ++ ?x)%string with x. rewrite ?sapp_assoc. do 3 f_equal. f_equal.
  induction l as [|y l IH]; [reflexivity|]. cbn [elemsI]. rewrite IH. reflexivity.
Qed.
Lemma printI_obj d k x l : printI d (JObj ((k, x) :: l)) =
  ("{" ++ newline (S d) ++ quoted k ++ ": " ++ printI (S d) x ++ membersI (S d) l ++ newline d ++ "}")%string.
Proof.
  cbn [printI]. change ("" ++ ?x)%string with x. rewrite ?sapp_assoc. do 5 f_equal. f_equal.
  induction l as [|[k' y] l IH]; [reflexivity|]. cbn [membersI]. rewrite IH. reflexivity.
Qed.

Lemma skipWs_spaces n s : skipWs (spaces n ++ s) = skipWs s.
Proof. induction n as [|n IH]; [reflexivity|]. cbn [spaces append skipWs]. replace (isWs " ") with true by reflexivity. exact IH. Qed.
Lemma skipWs_newline n s : skipWs (newline n ++ s) = skipWs s.
Proof. unfold newline. cbn [append skipWs]. replace (isWs (byte_of_N 10)) with true by reflexivity. apply skipWs_spaces. Qed.

Lemma rawVal_newline n d k s : rawVal n d (newline k ++ s) = rawVal n d s.
Proof. destruct n as [|n]; [reflexivity|]. cbn [rawVal]. rewrite skipWs_newline. reflexivity. Qed.
Lemma rawVal_space n d s : rawVal n d (String " " s) = rawVal n d s.
Proof. destruct n as [|n]; [reflexivity|]. cbn [rawVal]. change (skipWs (String " " s)) with (skipWs s). reflexivity. Qed.
Lemma rawMembers_newline n d k s : rawMembers n d (newline k ++ s) = rawMembers n d s.
Proof. destruct n as [|n]; [reflexivity|]. cbn [rawMembers]. rewrite skipWs_newline. reflexivity. Qed.

Lemma printI_first d j : JLit j -> exists c t, printI d j = String c t /\ isWs c = false /\
  (N_of_byte c =? 93)%N = false /\ (N_of_byte c =? 125)%N = false.
Proof.
  intros W. destruct W as [ |b|l L|s H|l H|l H].
  - do 2 eexists; repeat split.
  - destruct b; do 2 eexists; repeat split.
  - destruct (NumLit_first l L) as (c & r & -> & D). exists c, r. split; [reflexivity|].
    assert (N_of_byte c = 45 \/ (48 <= N_of_byte c <= 57))%N as B.
    { destruct D as [D|D]; [left; exact D|right]. unfold is_digit_byte, in_range in D.
      rewrite andb_true_iff, !N.leb_le in D. lia. }
    unfold isWs. split; [|split; apply N.eqb_neq; lia].
    rewrite !orb_false_iff, !N.eqb_neq. lia.
  - do 2 eexists; repeat split.
  - destruct l as [|x l]; [do 2 eexists; repeat split|]. rewrite printI_arr. do 2 eexists; repeat split.
  - destruct l as [|[k x] l]; [do 2 eexists; repeat split|]. rewrite printI_obj. do 2 eexists; repeat split.
Qed.

Lemma skipWs_printI d j t : JLit j -> skipWs (printI d j ++ t) = (printI d j ++ t)%string.
Proof.
  intros W. destruct (printI_first d j W) as (c & r & E & S & _). rewrite E. cbn [append skipWs]. rewrite S. reflexivity.
Qed.

Lemma quoted_app s t : (quoted s ++ t)%string = String (byte_of_N 34) (s ++ String (byte_of_N 34) t).
Proof. unfold quoted, chr. cbn [append]. rewrite sapp_assoc. reflexivity. Qed.

Definition RawBack (j : json) : Prop :=
  forall n d k rest, JLit j -> jsize j <= n -> (N.of_nat (jdepth j) <= d)%N -> numDelim rest ->
  rawVal n d (printI k j ++ rest) = Some (j, rest).

Lemma numDelim_comma t : numDelim (String ","%char t).
Proof. repeat split; discriminate. Qed.
Lemma numDelim_newline k t : numDelim (newline k ++ t).
Proof. repeat split; discriminate. Qed.

Lemma rawElems_printI : forall l x n d k k' rest,
  RawBack x -> (forall y, In y l -> RawBack y) ->
  JLit x -> (forall y, In y l -> JLit y) ->
  S (jsize x + sizeElems l) <= n -> (N.of_nat (Nat.max (jdepth x) (depthElems l)) <= d)%N ->
  rawElems n d (newline k ++ printI k x ++ elemsI k l ++ newline k' ++ String "]" rest) = Some (x :: l, rest).
Proof.
  induction l as [|y l IH]; intros x n d k k' rest Rx Rl Wx Wl L D;
  (destruct n as [|n]; [lia|]); cbn [rawElems elemsI append]; rewrite rawVal_newline.
  - cbn [sizeElems depthElems] in *. rewrite (Rx n d k _ Wx); [|lia|lia|apply numDelim_newline].
    rewrite skipWs_newline. reflexivity.
  - cbn [sizeElems depthElems] in *.
    rewrite (Rx n d k _ Wx); [|lia|lia|apply numDelim_comma].
    cbn [skipWs]. replace (isWs ",") with false by reflexivity.
    replace (N_of_byte "," =? 93)%N with false by reflexivity.
    replace (N_of_byte "," =? 44)%N with true by reflexivity.
    rewrite !sapp_assoc, IH; [reflexivity|apply Rl; left; reflexivity|intros z Hz; apply Rl; right; exact Hz
      |apply Wl; left; reflexivity|intros z Hz; apply Wl; right; exact Hz|lia|lia].
Qed.

Lemma rawMembers_printI : forall l key x n d k k' rest,
  RawBack x -> (forall key y, In (key, y) l -> RawBack y) ->
  Lit key -> JLit x -> (forall key y, In (key, y) l -> Lit key /\ JLit y) ->
  S (jsize x + sizeMembers l) <= n -> (N.of_nat (Nat.max (jdepth x) (depthMembers l)) <= d)%N ->
  rawMembers n d (newline k ++ quoted key ++ ": " ++ printI k x ++ membersI k l ++ newline k' ++ String "}" rest)
    = Some ((key, x) :: l, rest).
Proof.
  induction l as [|[key' y] l IH]; intros key x n d k k' rest Rx Rl Lk Wx Wl L D;
  (destruct n as [|n]; [lia|]); rewrite rawMembers_newline, quoted_app;
  cbn [rawMembers skipWs];
  (replace (isWs (byte_of_N 34)) with false by reflexivity);
  (replace (N_of_byte (byte_of_N 34) =? 34)%N with true by reflexivity);
  rewrite readLit_lit by assumption;
  cbn [append skipWs];
  (replace (isWs ":") with false by reflexivity);
  (replace (N_of_byte ":" =? 58)%N with true by reflexivity);
  cbn [sizeMembers depthMembers membersI append] in *; rewrite rawVal_space.
  - rewrite (Rx n d k _ Wx); [|lia|lia|apply numDelim_newline]. rewrite skipWs_newline. reflexivity.
  - rewrite (Rx n d k _ Wx); [|lia|lia|apply numDelim_comma].
    cbn [skipWs]. replace (isWs ",") with false by reflexivity.
    replace (N_of_byte "," =? 125)%N with false by reflexivity.
    replace (N_of_byte "," =? 44)%N with true by reflexivity.
    destruct (Wl key' y (or_introl eq_refl)) as [Lk' Wy].
    rewrite !sapp_assoc. cbn [append]. rewrite !sapp_assoc.
    rewrite IH; [reflexivity|eapply Rl; left; reflexivity|intros ? z Hz; eapply Rl; right; exact Hz
      |exact Lk'|exact Wy|intros ? z Hz; eapply Wl; right; exact Hz|lia|lia].
Qed.

Lemma raw_back j : RawBack j.
Proof.
  induction j as [ |b|l|s|l IH|l IH] using json_ind'; intros n d k rest W L D N.
  - destruct n as [|n]; [simpl in L; lia|]. reflexivity.
  - destruct n as [|n]; [simpl in L; lia|]. destruct b; reflexivity.
  - destruct n as [|n]; [simpl in L; lia|].
    inversion W as [ | |? NL| | | ]; subst. cbn [printI].
    destruct (NumLit_first l NL) as (c & r & E & F).
    assert (N_of_byte c = 45 \/ (48 <= N_of_byte c <= 57))%N as B.
    { destruct F as [F|F]; [left; exact F|right]. unfold is_digit_byte, in_range in F.
      rewrite andb_true_iff, !N.leb_le in F. lia. }
    pose proof (skipWs_printI k (JNum l) rest W) as SK. cbn [printI] in SK.
    cbn [rawVal]. rewrite SK. rewrite E at 1. cbn [append].
    replace (N_of_byte c =? 110)%N with false by (symmetry; apply N.eqb_neq; lia).
    replace (N_of_byte c =? 116)%N with false by (symmetry; apply N.eqb_neq; lia).
    replace (N_of_byte c =? 102)%N with false by (symmetry; apply N.eqb_neq; lia).
    replace (N_of_byte c =? 34)%N with false by (symmetry; apply N.eqb_neq; lia).
    replace (N_of_byte c =? 91)%N with false by (symmetry; apply N.eqb_neq; lia).
    replace (N_of_byte c =? 123)%N with false by (symmetry; apply N.eqb_neq; lia).
    change (String c (r ++ rest)) with (String c r ++ rest)%string. rewrite <- E.
    rewrite readNum_app by assumption. reflexivity.
  - destruct n as [|n]; [simpl in L; lia|]. inversion W as [ | | |? Ls| | ]; subst.
    cbn [printI]. rewrite quoted_app.
    cbn [rawVal skipWs]. replace (isWs (byte_of_N 34)) with false by reflexivity.
    replace (N_of_byte (byte_of_N 34) =? 110)%N with false by reflexivity.
    replace (N_of_byte (byte_of_N 34) =? 116)%N with false by reflexivity.
    replace (N_of_byte (byte_of_N 34) =? 102)%N with false by reflexivity.
    replace (N_of_byte (byte_of_N 34) =? 34)%N with true by reflexivity.
    rewrite readLit_lit by assumption. reflexivity.
  - rewrite jsize_arr in L. rewrite jdepth_arr in D.
    inversion W as [ | | | |? WL| ]; subst.
    destruct n as [|n]; [lia|].
    destruct l as [|x l].
    + cbn [printI append rawVal skipWs].
      replace (isWs "[") with false by reflexivity.
      replace (N_of_byte "[" =? 110)%N with false by reflexivity.
      replace (N_of_byte "[" =? 116)%N with false by reflexivity.
      replace (N_of_byte "[" =? 102)%N with false by reflexivity.
      replace (N_of_byte "[" =? 34)%N with false by reflexivity.
      replace (N_of_byte "[" =? 91)%N with true by reflexivity.
      replace (d =? 0)%N with false by (symmetry; apply N.eqb_neq; lia). reflexivity.
    + rewrite printI_arr. rewrite !sapp_assoc. cbn [append rawVal].
      cbn [skipWs].
      replace (isWs "[") with false by reflexivity.
      replace (N_of_byte "[" =? 110)%N with false by reflexivity.
      replace (N_of_byte "[" =? 116)%N with false by reflexivity.
      replace (N_of_byte "[" =? 102)%N with false by reflexivity.
      replace (N_of_byte "[" =? 34)%N with false by reflexivity.
      replace (N_of_byte "[" =? 91)%N with true by reflexivity.
      replace (d =? 0)%N with false by (symmetry; apply N.eqb_neq; lia).
      assert (Wx : JLit x) by (apply WL; left; reflexivity).
      rewrite skipWs_newline, (skipWs_printI _ x _ Wx).
      destruct (printI_first (S k) x Wx) as (c & t & E & _ & C93 & _).
      rewrite E at 1. cbn [append]. rewrite C93.
      cbn [sizeElems depthElems] in *.
      rewrite rawElems_printI; [reflexivity|apply IH; left; reflexivity|intros y Hy; apply IH; right; exact Hy
        |exact Wx|intros y Hy; apply WL; right; exact Hy|lia|lia].
  - rewrite jsize_obj in L. rewrite jdepth_obj in D.
    inversion W as [ | | | | |? WL]; subst.
    destruct n as [|n]; [lia|].
    destruct l as [|[key x] l].
    + cbn [printI append rawVal skipWs].
      replace (isWs "{") with false by reflexivity.
      replace (N_of_byte "{" =? 110)%N with false by reflexivity.
      replace (N_of_byte "{" =? 116)%N with false by reflexivity.
      replace (N_of_byte "{" =? 102)%N with false by reflexivity.
      replace (N_of_byte "{" =? 34)%N with false by reflexivity.
      replace (N_of_byte "{" =? 91)%N with false by reflexivity.
      replace (N_of_byte "{" =? 123)%N with true by reflexivity.
      replace (d =? 0)%N with false by (symmetry; apply N.eqb_neq; lia). reflexivity.
    + rewrite printI_obj. rewrite !sapp_assoc.
      set (body := (newline (S k) ++ quoted key ++ ": " ++ printI (S k) x ++ membersI (S k) l ++ newline k ++ "}" ++ rest)%string).
      cbn [append rawVal].
      cbn [skipWs].
      replace (isWs "{") with false by reflexivity.
      replace (N_of_byte "{" =? 110)%N with false by reflexivity.
      replace (N_of_byte "{" =? 116)%N with false by reflexivity.
      replace (N_of_byte "{" =? 102)%N with false by reflexivity.
      replace (N_of_byte "{" =? 34)%N with false by reflexivity.
      replace (N_of_byte "{" =? 91)%N with false by reflexivity.
      replace (N_of_byte "{" =? 123)%N with true by reflexivity.
      replace (d =? 0)%N with false by (symmetry; apply N.eqb_neq; lia).
      destruct (WL key x (or_introl eq_refl)) as [Lk Wx].
      assert (Hskip : exists t, skipWs body = String (byte_of_N 34) t).
      { unfold body. rewrite skipWs_newline, quoted_app. eexists. reflexivity. }
      destruct Hskip as [t Ht]. rewrite Ht.
      replace (N_of_byte (byte_of_N 34) =? 125)%N with false by reflexivity.
      cbn [sizeMembers depthMembers] in *. unfold body.
      change ("}" ++ rest)%string with (String "}" rest).
      rewrite rawMembers_printI; [reflexivity|eapply IH; left; reflexivity|intros ? y Hy; eapply IH; right; exact Hy
        |exact Lk|exact Wx|intros ? y Hy; eapply WL; right; exact Hy|lia|lia].
Qed.

Lemma jsize_printI j : forall d, JLit j -> jsize j <= 2 * String.length (printI d j).
Proof.
  induction j as [ |b|l|s|l IH|l IH] using json_ind'; intros d W.
  - simpl; lia.
  - destruct b; simpl; lia.
  - destruct (printI_first d _ W) as (c & t & E & _). rewrite E. simpl. lia.
  - simpl. lia.
  - rewrite jsize_arr. inversion W as [ | | | |? WL| ]; subst. destruct l as [|x l]; [simpl; lia|].
    rewrite printI_arr. rewrite !slength_app. cbn [String.length].
    assert (Hx : jsize x <= 2 * String.length (printI (S d) x))
      by (apply IH; [left; reflexivity|apply WL; left; reflexivity]).
    assert (Hl : sizeElems l <= 2 * String.length (elemsI (S d) l)).
    { clear Hx. assert (forall y, In y l -> jsize y <= 2 * String.length (printI (S d) y)) as IH'.
      { intros y Hy. apply IH; [right; exact Hy|apply WL; right; exact Hy]. }
      clear - IH'. induction l as [|y l IHl]; [simpl; lia|].
      cbn [sizeElems elemsI]. rewrite !slength_app. cbn [String.length].
      specialize (IHl (fun z Hz => IH' z (or_intror Hz))).
      specialize (IH' y (or_introl eq_refl)). lia. }
    cbn [sizeElems]. unfold newline. cbn [String.length]. lia.
  - rewrite jsize_obj. inversion W as [ | | | | |? WL]; subst. destruct l as [|[k x] l]; [simpl; lia|].
    rewrite printI_obj. rewrite !slength_app. cbn [String.length].
    assert (Hx : jsize x <= 2 * String.length (printI (S d) x))
      by (eapply IH; [left; reflexivity|apply (WL k x); left; reflexivity]).
    assert (Hl : sizeMembers l <= 2 * String.length (membersI (S d) l)).
    { clear Hx. assert (forall k y, In (k, y) l -> jsize y <= 2 * String.length (printI (S d) y)) as IH'.
      { intros k' y Hy. eapply IH; [right; exact Hy|apply (WL k' y); right; exact Hy]. }
      clear - IH'. induction l as [|[k' y] l IHl]; [simpl; lia|].
      cbn [sizeMembers membersI]. rewrite !slength_app. cbn [String.length].
      specialize (IHl (fun k z Hz => IH' k z (or_intror Hz))).
      specialize (IH' k' y (or_introl eq_refl)). lia. }
    cbn [sizeMembers]. lia.
Qed.

Theorem parseRaw_print j : JLit j -> (N.of_nat (jdepth j) <= maxNestingDepth)%N ->
  parseRaw (printI 0 j ++ String (byte_of_N 10) EmptyString) = Some j.
Proof.
  intros W D. pose proof (jsize_printI j 0 W) as SZ. unfold parseRaw.
  rewrite raw_back; [reflexivity|assumption| |assumption|repeat split; discriminate].
  rewrite slength_app. lia.
Qed.
