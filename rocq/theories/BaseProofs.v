(** Lemmas about the string and list helpers of Base.v *)
From Verif Require Import Base.

Lemma sapp_nil_r s : (s ++ "")%string = s.
Proof. induction s as [|c s IH]; cbn; [reflexivity|now rewrite IH]. Qed.

Lemma sapp_assoc a b c : ((a ++ b) ++ c)%string = (a ++ (b ++ c))%string.
Proof. induction a as [|x a IH]; cbn; [reflexivity|now rewrite IH]. Qed.

Lemma slength_app a b : String.length (a ++ b) = String.length a + String.length b.
Proof. induction a as [|x a IH]; cbn; [reflexivity|now rewrite IH]. Qed.

Lemma sapp_inv_head a b c : (a ++ b)%string = (a ++ c)%string -> b = c.
Proof. induction a as [|x a IH]; cbn; [auto|intro H; injection H; auto]. Qed.

Lemma sconcat_app a b : sconcat (a ++ b) = (sconcat a ++ sconcat b)%string.
Proof.
  induction a as [|x a IH]; cbn; [reflexivity|]. now rewrite IH, sapp_assoc.
Qed.

Lemma smap_app f a b : smap f (a ++ b) = (smap f a ++ smap f b)%string.
Proof. induction a as [|x a IH]; cbn; [reflexivity|now rewrite IH]. Qed.

Lemma smap_length f s : String.length (smap f s) = String.length s.
Proof. induction s as [|x s IH]; cbn; [reflexivity|now rewrite IH]. Qed.

Lemma sforall_app p a b : sforall p (a ++ b) = sforall p a && sforall p b.
Proof. induction a as [|x a IH]; cbn; [reflexivity|]. now rewrite IH, andb_assoc. Qed.

Lemma sexists_app p a b : sexists p (a ++ b) = sexists p a || sexists p b.
Proof. induction a as [|x a IH]; cbn; [reflexivity|]. now rewrite IH, orb_assoc. Qed.

Lemma has_prefix_app p s : has_prefix p (p ++ s) = true.
Proof. induction p as [|x p IH]; cbn; [reflexivity|]. now rewrite Ascii.eqb_refl, IH. Qed.

Lemma drop_app p s : drop (String.length p) (p ++ s) = s.
Proof. induction p as [|x p IH]; cbn; [reflexivity|]. now rewrite IH. Qed.

Lemma take_app p s : take (String.length p) (p ++ s) = p.
Proof. induction p as [|x p IH]; cbn; [reflexivity|]. now rewrite IH. Qed.

Lemma has_prefix_iff p s : has_prefix p s = true <-> exists r, s = (p ++ r)%string.
Proof.
  split.
  - revert s; induction p as [|x p IH]; intros s H.
    + exists s; reflexivity.
    + destruct s as [|y s]; cbn in H; [discriminate|].
      apply andb_true_iff in H as [Hx H]. apply Ascii.eqb_eq in Hx; subst y.
      destruct (IH _ H) as [r Hr]. exists r. cbn. now rewrite Hr.
  - intros [r ->]. apply has_prefix_app.
Qed.

Lemma drop_all s : drop (String.length s) s = EmptyString.
Proof. induction s as [|c s IH]; cbn; auto. Qed.

Lemma take_all s : take (String.length s) s = s.
Proof. induction s as [|c s IH]; cbn; [auto|now rewrite IH]. Qed.

Lemma drop_length n s : String.length (drop n s) = String.length s - n.
Proof. revert s; induction n as [|n IH]; intros [|c s]; cbn; auto. Qed.

Lemma take_length n s : String.length (take n s) = Nat.min n (String.length s).
Proof. revert s; induction n as [|n IH]; intros [|c s]; cbn; auto. Qed.

Lemma take_drop n s : (take n s ++ drop n s)%string = s.
Proof. revert s; induction n as [|n IH]; intros [|c s]; cbn; auto. now rewrite IH. Qed.

Lemma has_suffix_iff p s : has_suffix p s = true <-> exists r, s = (r ++ p)%string.
Proof.
  unfold has_suffix. split.
  - intros H. apply andb_true_iff in H as [Hl He].
    apply Nat.leb_le in Hl. apply String.eqb_eq in He.
    exists (take (String.length s - String.length p) s).
    rewrite <- He at 2. now rewrite take_drop.
  - intros [r ->]. rewrite slength_app.
    replace (String.length r + String.length p - String.length p) with (String.length r) by lia.
    rewrite drop_app, String.eqb_refl. rewrite andb_true_r. apply Nat.leb_le; lia.
Qed.

Lemma has_suffix_app p s : has_suffix p (s ++ p) = true.
Proof. apply has_suffix_iff. now exists s. Qed.

Lemma index_byte_app_not c a b :
  contains_byte c a = false ->
  index_byte c (a ++ b) = match index_byte c b with
                          | Some n => Some (String.length a + n)
                          | None => None end.
Proof.
  unfold contains_byte.
  induction a as [|x a IH]; cbn; intro H.
  - destruct (index_byte c b); reflexivity.
  - apply orb_false_iff in H as [Hx H]. rewrite Hx, (IH H).
    destruct (index_byte c b); reflexivity.
Qed.

Lemma index_byte_none c s : contains_byte c s = false <-> index_byte c s = None.
Proof.
  unfold contains_byte. induction s as [|x s IH]; cbn; [tauto|].
  destruct (Ascii.eqb x c); cbn.
  - split; discriminate.
  - rewrite IH. destruct (index_byte c s); split; congruence.
Qed.

Lemma index_byte_some c s n :
  index_byte c s = Some n ->
  s = (take n s ++ String c (drop (S n) s))%string /\ contains_byte c (take n s) = false.
Proof.
  unfold contains_byte. revert n; induction s as [|x s IH]; intros n H; [discriminate|].
  cbn [index_byte] in H. destruct (Ascii.eqb x c) eqn:Hx.
  - injection H as <-. apply Ascii.eqb_eq in Hx; subst x. split; reflexivity.
  - destruct (index_byte c s) as [m|] eqn:Hm; [|discriminate].
    injection H as <-. destruct (IH m eq_refl) as [H1 H2].
    cbn [take drop sexists]. split; [|now rewrite Hx, H2].
    cbn [append]. f_equal. exact H1.
Qed.

Lemma str_in_In s l : str_in s l = true <-> In s l.
Proof.
  unfold str_in. rewrite existsb_exists. split.
  - intros [x [Hx He]]. apply String.eqb_eq in He. now subst.
  - intro H. exists s. split; [assumption|apply String.eqb_refl].
Qed.

Lemma str_in_not s l : str_in s l = false <-> ~ In s l.
Proof.
  rewrite <- str_in_In. destruct (str_in s l); split; congruence.
Qed.

Lemma join_split c s : join (String c "") (split_byte c s) = s.
Proof.
  induction s as [|x s IH]; [reflexivity|]. cbn [split_byte].
  destruct (Ascii.eqb x c) eqn:Hx.
  - apply Ascii.eqb_eq in Hx; subst x.
    destruct (split_byte c s) as [|y ys] eqn:Hs.
    + exfalso. clear -Hs. destruct s as [|z s]; cbn in Hs; [discriminate|].
      destruct (Ascii.eqb z c); [discriminate|]. destruct (split_byte c s); discriminate.
    + cbn [join]. cbn [append]. f_equal. exact IH.
  - destruct (split_byte c s) as [|y ys] eqn:Hs.
    + exfalso. clear -Hs. destruct s as [|z s]; cbn in Hs; [discriminate|].
      destruct (Ascii.eqb z c); [discriminate|]. destruct (split_byte c s); discriminate.
    + destruct ys as [|z ys].
      * cbn [join] in *. now rewrite IH.
      * change (join (String c "") (String x y :: z :: ys))
          with (String x (join (String c "") (y :: z :: ys))). now rewrite IH.
Qed.

Lemma split_byte_nonempty c s : split_byte c s <> [].
Proof.
  destruct s as [|z s]; cbn; [discriminate|].
  destruct (Ascii.eqb z c); [discriminate|]. destruct (split_byte c s); discriminate.
Qed.

Lemma split_byte_no c s x : In x (split_byte c s) -> contains_byte c x = false.
Proof.
  unfold contains_byte. revert x. induction s as [|y s IH]; cbn; intros x H.
  - destruct H as [<-|[]]; reflexivity.
  - destruct (Ascii.eqb y c) eqn:Hy.
    + destruct H as [<-|H]; [reflexivity|auto].
    + destruct (split_byte c s) as [|z zs].
      * destruct H as [<-|[]]. cbn. now rewrite Hy.
      * destruct H as [<-|H]; [|apply IH; now right].
        cbn. rewrite Hy. cbn. apply IH. now left.
Qed.

Lemma split_byte_app c a b :
  contains_byte c a = false ->
  split_byte c (a ++ String c b) = a :: split_byte c b.
Proof.
  unfold contains_byte. induction a as [|x a IH]; cbn; intro H.
  - now rewrite Ascii.eqb_refl.
  - apply orb_false_iff in H as [Hx H]. rewrite Hx. now rewrite (IH H).
Qed.

Lemma split_byte_none c a : contains_byte c a = false -> split_byte c a = [a].
Proof.
  unfold contains_byte. induction a as [|x a IH]; cbn; intro H; [reflexivity|].
  apply orb_false_iff in H as [Hx H]. rewrite Hx. now rewrite (IH H).
Qed.

Lemma split_join c l :
  l <> [] -> (forall x, In x l -> contains_byte c x = false) ->
  split_byte c (join (String c "") l) = l.
Proof.
  induction l as [|x l IH]; intros Hne H; [congruence|].
  destruct l as [|y l].
  - cbn. apply split_byte_none. apply H. now left.
  - change (join (String c "") (x :: y :: l))
      with (x ++ String c (join (String c "") (y :: l)))%string.
    rewrite split_byte_app by (apply H; now left). f_equal.
    apply IH; [discriminate|]. intros z Hz. apply H. now right.
Qed.

Lemma to_lower_idem_byte c : lower_byte (lower_byte c) = lower_byte c.
Proof. destruct c as [[] [] [] [] [] [] [] []]; reflexivity. Qed.

Lemma to_lower_idem s : to_lower (to_lower s) = to_lower s.
Proof. unfold to_lower. induction s as [|x s IH]; cbn; [reflexivity|]. now rewrite IH, to_lower_idem_byte. Qed.

Lemma to_lower_app a b : to_lower (a ++ b) = (to_lower a ++ to_lower b)%string.
Proof. apply smap_app. Qed.

Lemma mapM_length {A B} (f : A -> result B) l l' : mapM f l = Ok l' -> length l' = length l.
Proof.
  revert l'; induction l as [|x l IH]; cbn; intros l' H; [injection H as <-; reflexivity|].
  destruct (f x); try discriminate; cbn in H.
  destruct (mapM f l); try discriminate; cbn in H. injection H as <-. cbn. now rewrite (IH _ eq_refl).
Qed.

Lemma mapM_Forall2 {A B} (f : A -> result B) l l' :
  mapM f l = Ok l' -> Forall2 (fun x y => f x = Ok y) l l'.
Proof.
  revert l'; induction l as [|x l IH]; cbn; intros l' H; [injection H as <-; constructor|].
  destruct (f x) eqn:Hx; try discriminate; cbn in H.
  destruct (mapM f l); try discriminate; cbn in H. injection H as <-. constructor; auto.
Qed.

Lemma Forall2_mapM {A B} (f : A -> result B) l l' :
  Forall2 (fun x y => f x = Ok y) l l' -> mapM f l = Ok l'.
Proof.
  induction 1 as [|x y l l' Hx _ IH]; cbn; [reflexivity|]. now rewrite Hx, IH.
Qed.

Lemma bind_ok {A B} (x : result A) (f : A -> result B) b :
  bind x f = Ok b -> exists a, x = Ok a /\ f a = Ok b.
Proof. destruct x; cbn; intro H; try discriminate. eauto. Qed.
