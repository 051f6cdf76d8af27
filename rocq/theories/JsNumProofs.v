(** Proofs about JsNum.v: rounding and the texts of numbers. *)
From Verif Require Import Base BaseProofs Utf8 Json GoVal GoValSpec GoValProofs TsBigSpec JsNum JsNumSpec.
From Coq Require Import Lia.
Local Open Scope Z_scope.

(** ** Rounding *)

Lemma double_opp x : Double x -> Double (- x).
Proof. intros (m & e & E & M & ->). exists (- m), e. repeat split; [exact E|lia|lia]. Qed.
Lemma evenDouble_opp x : EvenDouble x -> EvenDouble (- x).
Proof.
  intros (m & e & E & M & H & EV & ->). exists (- m), e. rewrite Z.abs_opp. repeat split; auto; [rewrite Z.even_opp; exact EV|lia].
Qed.
Lemma nearest_opp z x : Nearest z x -> Nearest (- z) (- x).
Proof.
  intros [D H]. split; [apply double_opp, D|]. intros y DY. destruct (H (- y) (double_opp y DY)) as [A B]. split; [lia|].
  intros E. destruct B as [B|B]; [lia|left; lia|right; apply evenDouble_opp, B].
Qed.

Lemma double_small z : Z.abs z < 2 ^ 53 -> Double z.
Proof. intros H. exists z, 0. rewrite Z.pow_0_r. repeat split; lia. Qed.

Lemma nearest_self x : Double x -> Nearest x x.
Proof. intros D. split; [exact D|]. intros y DY. split; [lia|]. intros E. left. lia. Qed.

Lemma roundInt_opp z : roundInt (- z) = - roundInt z.
Proof.
  unfold roundInt. rewrite Z.abs_opp. destruct (Z.abs z <? 2 ^ 53); [reflexivity|]. rewrite Z.sgn_opp. cbv zeta. ring.
Qed.

Lemma round_pos a : 2 ^ 53 <= a -> Nearest a (roundInt a).
Proof.
  intros H. unfold roundInt. rewrite Z.abs_eq by lia.
  replace (a <? 2 ^ 53) with false by (symmetry; apply Z.ltb_ge; exact H). rewrite Z.sgn_pos by lia. rewrite Z.mul_1_l.
  assert (LG : 53 <= Z.log2 a) by (apply Z.log2_le_pow2; lia). set (e := Z.log2 a - 52). assert (E0 : 1 <= e) by (unfold e; lia).
  destruct (Z.log2_spec a ltac:(lia)) as [L1 L2].
  replace (Z.log2 a) with (52 + e) in L1 by (unfold e; lia). replace (Z.succ (Z.log2 a)) with (53 + e) in L2 by (unfold e; lia).
  rewrite Z.pow_add_r in L1, L2 by lia. set (u := 2 ^ e) in *. assert (U : 2 <= u). { unfold u. change 2 with (2 ^ 1) at 1. apply Z.pow_le_mono_r; lia. }
  cbv zeta. pose proof (Z.div_mod a u ltac:(lia)) as DM. pose proof (Z.mod_pos_bound a u ltac:(lia)) as MB.
  set (m := a / u) in *. set (r := a mod u) in *.
  assert (M1 : 2 ^ 52 <= m). { unfold m. apply Z.div_le_lower_bound; lia. }
  assert (M2 : m < 2 ^ 53). { unfold m. apply Z.div_lt_upper_bound; lia. }
  set (up := (u <? 2 * r) || ((2 * r =? u) && Z.odd m)).
  set (q := if up then m + 1 else m).
  (* the multiples of u *)
  assert (GR : forall k, Z.abs (a - q * u) <= Z.abs (a - k * u) /\ (Z.abs (a - q * u) = Z.abs (a - k * u) -> k = q \/ (2 * r = u /\ Z.even q = true))).
  { intros k.
    assert (C : k <= m \/ m + 1 <= k) by lia.
    assert (D : Z.abs (a - q * u) = if up then u - r else r).
    { unfold q. destruct up; [rewrite Z.abs_neq; lia|rewrite Z.abs_eq; lia]. }
    assert (D' : (k <= m -> Z.abs (a - k * u) = r + (m - k) * u) /\ (m + 1 <= k -> Z.abs (a - k * u) = (k - m - 1) * u + (u - r))).
    { split; intros K; [rewrite Z.abs_eq; nia|rewrite Z.abs_neq; nia]. }
    rewrite D. destruct D' as [D1 D2].
    assert (UP : (up = true /\ u <= 2 * r /\ (u = 2 * r -> Z.odd m = true)) \/ (up = false /\ 2 * r <= u /\ (u = 2 * r -> Z.odd m = false))).
    { unfold up. destruct (u <? 2 * r) eqn:E1; cbn [orb]; [left; apply Z.ltb_lt in E1; repeat split; lia|apply Z.ltb_ge in E1].
      destruct (2 * r =? u) eqn:E2; cbn [andb]; [apply Z.eqb_eq in E2; destruct (Z.odd m) eqn:O; [left|right]; repeat split; lia|apply Z.eqb_neq in E2; right; repeat split; lia]. }
    destruct UP as [(-> & X & O)|(-> & X & O)].
    - unfold q. destruct C as [C|C].
      + rewrite (D1 C). split; [nia|]. intros EQ. right. assert (2 * r = u) by nia. split; [assumption|].
        rewrite Z.even_add. rewrite <- Z.negb_odd, O by lia. reflexivity.
      + rewrite (D2 C). split; [nia|]. intros EQ. left. nia.
    - unfold q. destruct C as [C|C].
      + rewrite (D1 C). split; [nia|]. intros EQ. left. nia.
      + rewrite (D2 C). split; [nia|]. intros EQ. right. assert (2 * r = u) by nia. split; [assumption|].
        rewrite <- Z.negb_odd, O by lia. reflexivity. }
  assert (Q : m <= q <= m + 1) by (unfold q; destruct up; lia).
  assert (DQ : Double (q * u) /\ (Z.even q = true -> EvenDouble (q * u))).
  { destruct (Z.eq_dec q (2 ^ 53)) as [QE|QN].
    - assert (X : q * u = 2 ^ 52 * 2 ^ (e + 1)). { rewrite QE. unfold u. rewrite Z.pow_add_r by lia. change (2 ^ 1) with 2. change (2 ^ 53) with (2 ^ 52 * 2). ring. }
      split; [exists (2 ^ 52), (e + 1)|intros _; exists (2 ^ 52), (e + 1)]; repeat split; try exact X; try lia; right; lia.
    - split; [exists q, e|intros EV; exists q, e]; repeat split; try lia; try exact EV; right; lia. }
  split; [apply DQ|]. intros y DY.
  assert (Y : (exists k, y = k * u) \/ Z.abs y < 2 ^ 52 * u).
  { destruct DY as (n & f & F & N & ->). destruct (Z_le_gt_dec e f) as [LE|GT].
    - left. exists (n * 2 ^ (f - e)). unfold u. rewrite <- Z.mul_assoc, <- Z.pow_add_r by lia. do 2 f_equal. lia.
    - right. assert (P : 2 * 2 ^ f <= u). { unfold u. rewrite <- Z.pow_succ_r by exact F. apply Z.pow_le_mono_r; lia. }
      rewrite Z.abs_mul. assert (0 < 2 ^ f) by (apply Z.pow_pos_nonneg; lia). rewrite (Z.abs_eq (2 ^ f)) by lia.
      change (2 ^ 53) with (2 ^ 52 * 2) in N. nia. }
  destruct Y as [(k & ->)|Y].
  - destruct (GR k) as [A B]. split; [exact A|]. intros EQ. destruct (B EQ) as [->|[_ EV]]; [left; reflexivity|right; apply DQ, EV].
  - destruct (GR (2 ^ 52)) as [A _]. split; lia.
Qed.

Lemma round_small z : Z.abs z < 2 ^ 53 -> roundInt z = z.
Proof. intros H. unfold roundInt. replace (Z.abs z <? 2 ^ 53) with true by (symmetry; apply Z.ltb_lt; exact H). reflexivity. Qed.

Theorem round_nearest z : Nearest z (roundInt z).
Proof.
  destruct (Z_lt_ge_dec (Z.abs z) (2 ^ 53)) as [H|H]; [rewrite round_small by exact H; apply nearest_self, double_small, H|].
  destruct (Z_le_gt_dec 0 z) as [P|P]; [apply round_pos; lia|].
  replace z with (- (- z)) by lia. rewrite roundInt_opp. apply nearest_opp, round_pos. lia.
Qed.

(** two doubles with the last mantissa bit 0 are not neighbours *)
Lemma between_pos x y : EvenDouble x -> EvenDouble y -> 0 <= y < x -> exists w, Double w /\ y < w < x.
Proof.
  intros (m & e & E0 & M & NM & EV & X) (n & f & F0 & N & NN & EVN & Y) [Y0 L].
  assert (PE : 0 < 2 ^ e) by (apply Z.pow_pos_nonneg; lia). assert (PF : 0 < 2 ^ f) by (apply Z.pow_pos_nonneg; lia).
  assert (MP : 0 < m) by nia. assert (NP : 0 <= n) by nia. rewrite Z.abs_eq in * by lia.
  assert (H : exists k e1, 0 <= e1 /\ x = k * 2 ^ e1 /\ Z.even k = true /\ k - 1 < 2 ^ 53 /\ 0 < k /\ (e1 = 0 \/ 2 ^ 52 <= k - 1)).
  { destruct NM as [->|NM]; [exists m, 0; repeat split; auto; lia|].
    destruct (Z.eq_dec m (2 ^ 52)) as [->|NE].
    - destruct (Z.eq_dec e 0) as [->|EN]; [exists (2 ^ 52), 0; repeat split; auto; lia|].
      exists (2 ^ 53), (e - 1). repeat split; try lia.
      rewrite X. replace e with (e - 1 + 1) at 1 by lia. rewrite Z.pow_add_r by lia. change (2 ^ 1) with 2. change (2 ^ 53) with (2 ^ 52 * 2). ring.
    - exists m, e. repeat split; auto; try lia. }
  destruct H as (k & e1 & E1 & X1 & EK & K1 & K0 & KB). assert (P1 : 0 < 2 ^ e1) by (apply Z.pow_pos_nonneg; lia).
  exists ((k - 1) * 2 ^ e1). split; [exists (k - 1), e1; repeat split; lia|].
  split; [|nia].
  destruct (Z_le_gt_dec e1 f) as [LE|GT].
  - assert (YK : y = (n * 2 ^ (f - e1)) * 2 ^ e1). { rewrite Y, <- Z.mul_assoc, <- Z.pow_add_r by lia. do 2 f_equal. lia. }
    assert (EY : Z.even (n * 2 ^ (f - e1)) = true) by (rewrite Z.even_mul, EVN; reflexivity).
    set (c := n * 2 ^ (f - e1)) in *. apply Z.even_spec in EY, EK. destruct EY as [c' EY], EK as [k' EK]. assert (c < k) by (rewrite YK, X1 in L; nia). assert (c < k - 1) by lia. rewrite YK. nia.
  - assert (2 * 2 ^ f <= 2 ^ e1). { rewrite <- Z.pow_succ_r by exact F0. apply Z.pow_le_mono_r; lia. }
    destruct KB as [->|KB]; [lia|]. change (2 ^ 53) with (2 ^ 52 * 2) in N. nia.
Qed.

Lemma between x y : EvenDouble x -> EvenDouble y -> y < x -> exists w, Double w /\ y < w < x.
Proof.
  intros EX EY L. destruct (Z_le_gt_dec 0 y) as [P|P]; [apply between_pos; auto|].
  destruct (Z_le_gt_dec x 0) as [Q|Q].
  - destruct (between_pos (- y) (- x) (evenDouble_opp y EY) (evenDouble_opp x EX)) as (w & D & B); [lia|].
    exists (- w). split; [apply double_opp, D|lia].
  - exists 0. split; [apply double_small; reflexivity|lia].
Qed.

Theorem nearest_fun z x y : Nearest z x -> Nearest z y -> x = y.
Proof.
  intros [DX HX] [DY HY]. destruct (HX y DY) as [A EA]. destruct (HY x DX) as [B EB].
  assert (E : Z.abs (z - x) = Z.abs (z - y)) by lia. destruct (Z.eq_dec x y) as [|NE]; [assumption|exfalso].
  destruct (EA E) as [->|EX]; [congruence|]. destruct (EB (eq_sym E)) as [->|EY]; [congruence|].
  assert (exists w, Double w /\ (y < w < x \/ x < w < y)) as (w & D & W).
  { destruct (Z_lt_ge_dec y x); [destruct (between x y EX EY) as (w & D & W)|destruct (between y x EY EX) as (w & D & W)]; try lia; exists w; auto. }
  destruct (HX w D) as [C _]. lia.
Qed.

Lemma nearest_round z x : Nearest z x <-> roundInt z = x.
Proof. split; [intros H; apply (nearest_fun z); [apply round_nearest|exact H]|intros <-; apply round_nearest]. Qed.

Lemma round_double x : Double x -> roundInt x = x.
Proof. intros D. apply nearest_round, nearest_self, D. Qed.
Lemma round_is_double z : Double (roundInt z).
Proof. apply round_nearest. Qed.
Lemma round_idem z : roundInt (roundInt z) = roundInt z.
Proof. apply round_double, round_is_double. Qed.

Lemma round_mono a b : a <= b -> roundInt a <= roundInt b.
Proof.
  intros L. destruct (Z.eq_dec a b) as [->|NE]; [lia|].
  destruct (round_nearest a) as [DA HA]. destruct (round_nearest b) as [DB HB].
  destruct (HA _ DB) as [A _]. destruct (HB _ DA) as [B _]. lia.
Qed.

Lemma double_pow k : 0 <= k -> Double (2 ^ k).
Proof. intros H. exists 1, k. repeat split; lia. Qed.

Lemma safe_round z t : Safe z -> roundInt t = z -> t = z.
Proof.
  unfold Safe. intros S R. destruct (Z_lt_ge_dec (Z.abs t) (2 ^ 53)) as [L|G]; [rewrite round_small in R by exact L; exact R|exfalso].
  destruct (Z_le_gt_dec 0 t) as [P|P].
  - pose proof (round_mono (2 ^ 53) t ltac:(lia)) as M. rewrite (round_double (2 ^ 53)) in M by (apply double_pow; lia). lia.
  - pose proof (round_mono t (- 2 ^ 53) ltac:(lia)) as M. rewrite roundInt_opp, (round_double (2 ^ 53)) in M by (apply double_pow; lia). lia.
Qed.

(** ** The texts of numbers *)

Lemma shortestFrom_reads p x : roundInt x = x -> roundInt (shortestFrom p x) = x.
Proof.
  intros H. induction p as [|p IH]; [exact H|]. cbn [shortestFrom].
  destruct (Z.eqb_spec (roundInt (x / 10 ^ Z.of_nat (S p) * 10 ^ Z.of_nat (S p))) x) as [A|A];
  destruct (Z.eqb_spec (roundInt (x / 10 ^ Z.of_nat (S p) * 10 ^ Z.of_nat (S p) + 10 ^ Z.of_nat (S p))) x) as [B|B]; auto.
  destruct (_ || _); auto.
Qed.

Lemma pow10_div a b c : 0 <= a <= b -> (10 ^ b | c) -> (10 ^ a | c).
Proof. intros H D. eapply Z.divide_trans; [|exact D]. exists (10 ^ (b - a)). rewrite <- Z.pow_add_r by lia. f_equal. lia. Qed.

Lemma shortestFrom_spec p x : 0 <= x -> roundInt x = x ->
  let t := shortestFrom p x in
  (forall c q, 0 <= q <= Z.of_nat p -> roundInt c = x -> (10 ^ q | c) -> (10 ^ q | t)) /\
  (forall c, roundInt c = x -> (forall q, 0 <= q -> (10 ^ q | t) -> (10 ^ q | c)) -> Z.abs (t - x) <= Z.abs (c - x)).
Proof.
  intros X0 H. induction p as [|p IH].
  - cbn [shortestFrom]. split; [intros c q Q _ _; replace q with 0 by lia; rewrite Z.pow_0_r; apply Z.divide_1_l|intros; lia].
  - cbn zeta. cbn [shortestFrom]. set (u := 10 ^ Z.of_nat (S p)).
    assert (U : 0 < u) by (apply Z.pow_pos_nonneg; lia).
    pose proof (Z.div_mod x u ltac:(lia)) as DM. pose proof (Z.mod_pos_bound x u ltac:(lia)) as MB.
    set (k := x / u) in *. set (lo := k * u). set (hi := lo + u).
    assert (LO : lo <= x < hi) by (unfold lo, hi; lia).
    assert (DL : (u | lo)) by (exists k; reflexivity). assert (DH : (u | hi)) by (exists (k + 1); unfold hi, lo; ring).
    assert (CL : forall c, (u | c) -> roundInt c = x -> c <= lo /\ roundInt lo = x \/ hi <= c /\ roundInt hi = x).
    { intros c [d ->] R. destruct (Z_le_gt_dec d k) as [L|G].
      - left. assert (d * u <= lo) by (unfold lo; nia). split; [assumption|].
        pose proof (round_mono (d * u) lo ltac:(lia)). pose proof (round_mono lo x ltac:(lia)). lia.
      - right. assert (hi <= d * u) by (unfold hi, lo; nia). split; [assumption|].
        pose proof (round_mono hi (d * u) ltac:(lia)). pose proof (round_mono x hi ltac:(lia)). lia. }
    assert (DIV : forall t, (u | t) -> forall c q, 0 <= q <= Z.of_nat (S p) -> roundInt c = x -> (10 ^ q | c) -> (10 ^ q | t)).
    { intros t D c q Q _ _. eapply (pow10_div q (Z.of_nat (S p))); [lia|exact D]. }
    destruct (Z.eqb_spec (roundInt lo) x) as [A|A]; destruct (Z.eqb_spec (roundInt hi) x) as [B|B].
    + set (t := if (x - lo <? hi - x) || (x - lo =? hi - x) && Z.even k then lo else hi).
      assert (TT : (t = lo /\ x - lo <= hi - x) \/ (t = hi /\ hi - x <= x - lo)).
      { unfold t. destruct (Z.ltb_spec (x - lo) (hi - x)); cbn [orb]; [left; split; [reflexivity|lia]|].
        destruct (Z.eqb_spec (x - lo) (hi - x)); cbn [andb]; [destruct (Z.even k); [left|right]; split; auto; lia|right; split; auto]. }
      assert (DT : (u | t)) by (destruct TT as [[-> _]|[-> _]]; assumption).
      split; [apply DIV, DT|]. intros c R Q. destruct (CL c) as [[C _]|[C _]]; [apply Q; [lia|exact DT]|exact R| |]; lia.
    + split; [apply DIV, DL|]. intros c R Q. destruct (CL c) as [[C _]|[_ C]]; [apply Q; [lia|exact DL]|exact R|lia|contradiction].
    + split; [apply DIV, DH|]. intros c R Q. destruct (CL c) as [[_ C]|[C _]]; [apply Q; [lia|exact DH]|exact R|contradiction|lia].
    + destruct IH as [I1 I2]. split; [|exact I2]. intros c q Q R D. destruct (Z.eq_dec q (Z.of_nat (S p))) as [->|NE].
      * exfalso. destruct (CL c D R) as [[_ C]|[_ C]]; contradiction.
      * apply (I1 c q); [lia|exact R|exact D].
Qed.

Lemma divide_opp a b : (a | - b) <-> (a | b).
Proof. apply Z.divide_opp_r. Qed.

Lemma shown_opp x t : Shown x t -> Shown (- x) (- t).
Proof.
  intros (N & D & C). split; [apply nearest_opp, N|]. split.
  - intros c p P R Dv. apply divide_opp. apply (D (- c) p P); [rewrite <- (Z.opp_involutive x); apply nearest_opp, R|apply divide_opp, Dv].
  - intros c R Q. apply nearest_opp in R. rewrite Z.opp_involutive in R. specialize (C (- c) R).
    assert (forall p, 0 <= p -> (10 ^ p | t) -> (10 ^ p | - c)) as Q'.
    { intros p P Dv. apply divide_opp, Q; [exact P|apply divide_opp, Dv]. }
    specialize (C Q'). lia.
Qed.

Theorem shortest_shown x : Double x -> Z.abs x < 10 ^ 20 -> x <> 0 -> Shown x (shortest x).
Proof.
  assert (G : forall x, Double x -> 0 < x < 10 ^ 20 -> Shown x (shortestFrom 20 x)).
  { clear. intros x D B. pose proof (round_double x D) as R. destruct (shortestFrom_spec 20 x ltac:(lia) R) as [S1 S2].
    split; [apply nearest_round, shortestFrom_reads, R|]. split.
    - intros c p P N Dv. apply nearest_round in N. destruct (Z_le_gt_dec p 20) as [L|G]; [apply (S1 c p); [lia|exact N|exact Dv]|exfalso].
      assert (Dv' : (10 ^ 20 | c)) by (eapply (pow10_div 20 p); [lia|exact Dv]). destruct Dv' as [d ->].
      destruct (Z_le_gt_dec d 0) as [L|L].
      + pose proof (round_mono (d * 10 ^ 20) 0 ltac:(lia)) as M. rewrite (round_small 0) in M by reflexivity. lia.
      + pose proof (round_mono (10 ^ 20) (d * 10 ^ 20) ltac:(lia)) as M. replace (roundInt (10 ^ 20)) with (10 ^ 20) in M by (vm_compute; reflexivity). lia.
    - intros c N. apply nearest_round in N. apply S2, N. }
  intros D B NZ. unfold shortest. destruct (Z_lt_ge_dec 0 x) as [P|P].
  - rewrite Z.sgn_pos, Z.abs_eq, Z.mul_1_l by lia. apply G; [exact D|lia].
  - rewrite Z.sgn_neg, Z.abs_neq by lia. replace (-1 * shortestFrom 20 (- x)) with (- shortestFrom 20 (- x)) by lia.
    replace x with (- (- x)) at 1 by lia. apply shown_opp, G; [apply double_opp, D|lia].
Qed.

Lemma shortest_reads x : roundInt x = x -> roundInt (shortest x) = x.
Proof.
  intros R. unfold shortest. destruct (Z_lt_ge_dec 0 x) as [P|P]; [|destruct (Z.eq_dec x 0) as [->|NZ]; [reflexivity|]].
  - rewrite Z.sgn_pos, Z.abs_eq, Z.mul_1_l by lia. apply shortestFrom_reads, R.
  - rewrite Z.sgn_neg, Z.abs_neq by lia. replace (-1 * shortestFrom 20 (- x)) with (- shortestFrom 20 (- x)) by lia.
    rewrite roundInt_opp, shortestFrom_reads; [lia|rewrite roundInt_opp, R; reflexivity].
Qed.

Lemma safe_shown z : Safe z -> shortest (roundInt z) = z.
Proof.
  intros S. rewrite (round_small z) by (unfold Safe in S; lia). apply safe_round; [exact S|]. apply shortest_reads, round_small. unfold Safe in S. lia.
Qed.
