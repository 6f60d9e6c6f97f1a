From Verif Require Export Base.
Ltac Zify.zify_post_hook ::= Z.div_mod_to_equations.

Lemma wrapS_range w z : 1 <= w -> int_min w <= wrapS w z <= int_max w.
Proof.
  intros Hw. unfold int_min, int_max, wrapS.
  assert (E : 2 ^ w = 2 * 2 ^ (w - 1)).
  { rewrite <- Z.pow_succ_r by lia. f_equal. lia. }
  pose proof (Z.pow_pos_nonneg 2 (w - 1) ltac:(lia) ltac:(lia)).
  pose proof (Z.mod_pos_bound (z + 2 ^ (w - 1)) (2 ^ w) ltac:(lia)). lia.
Qed.

Lemma wrapS_small w z : 1 <= w -> int_min w <= z <= int_max w -> wrapS w z = z.
Proof.
  intros Hw. unfold int_min, int_max, wrapS. intros Hz.
  assert (E : 2 ^ w = 2 * 2 ^ (w - 1)).
  { rewrite <- Z.pow_succ_r by lia. f_equal. lia. }
  rewrite Z.mod_small by lia. lia.
Qed.

Lemma wrapS_cong w z : 1 <= w -> exists k, wrapS w z = z + k * 2 ^ w.
Proof.
  intros Hw. exists (- ((z + 2 ^ (w - 1)) / 2 ^ w)). unfold wrapS.
  pose proof (Z.pow_pos_nonneg 2 w ltac:(lia) ltac:(lia)).
  rewrite Z.mod_eq by lia. lia.
Qed.

Lemma wrapS_mod w z : 1 <= w -> (wrapS w z) mod 2 ^ w = z mod 2 ^ w.
Proof.
  intros Hw. destruct (wrapS_cong w z Hw) as [k ->].
  apply Z_mod_plus_full.
Qed.

Lemma wrapS_eq_mod w a b : 1 <= w -> a mod 2 ^ w = b mod 2 ^ w -> wrapS w a = wrapS w b.
Proof.
  intros Hw E. unfold wrapS. f_equal.
  rewrite <- (Zplus_mod_idemp_l a), <- (Zplus_mod_idemp_l b), E. reflexivity.
Qed.

Lemma wrapS_add_l w a b : 1 <= w -> wrapS w (wrapS w a + b) = wrapS w (a + b).
Proof.
  intros Hw. apply wrapS_eq_mod; [exact Hw|].
  rewrite <- Zplus_mod_idemp_l, wrapS_mod, Zplus_mod_idemp_l by lia. reflexivity.
Qed.

Lemma wrapS_add_r w a b : 1 <= w -> wrapS w (a + wrapS w b) = wrapS w (a + b).
Proof. intros. rewrite Z.add_comm, wrapS_add_l, Z.add_comm by lia. reflexivity. Qed.

Lemma wrapS_mul_l w a b : 1 <= w -> wrapS w (wrapS w a * b) = wrapS w (a * b).
Proof.
  intros Hw. apply wrapS_eq_mod; [exact Hw|].
  rewrite <- Zmult_mod_idemp_l, wrapS_mod, Zmult_mod_idemp_l by lia. reflexivity.
Qed.

Lemma wrapS_mul_r w a b : 1 <= w -> wrapS w (a * wrapS w b) = wrapS w (a * b).
Proof. intros. rewrite Z.mul_comm, wrapS_mul_l, Z.mul_comm by lia. reflexivity. Qed.

Lemma wrapS_idem w a : 1 <= w -> wrapS w (wrapS w a) = wrapS w a.
Proof. intros. apply wrapS_small; auto using wrapS_range. Qed.

Lemma in_int_true w z : in_int w z = true <-> int_min w <= z <= int_max w.
Proof. unfold in_int. lia. Qed.

(* norm succeeds and returns z when z fits, whatever the mode *)
Lemma norm_fits m w z : 1 <= w -> int_min w <= z <= int_max w -> norm m w z = Some z.
Proof.
  intros Hw Hz. destruct m; cbn [norm].
  - rewrite wrapS_small by assumption. reflexivity.
  - destruct (in_int w z) eqn:E; [reflexivity|]. unfold in_int in E. lia.
Qed.

(* ------------------------------------------------------------------ *)
(* loop rule *)

Lemma for_loop_inv {S} (I : Z -> S -> Prop) stop step (body : Z -> S -> option S) :
  1 <= step ->
  forall fuel i s,
    (Z.to_nat (stop - i) <= fuel)%nat ->
    I i s ->
    (forall j s0, i <= j < stop -> (step | j - i) -> I j s0 ->
       exists s1, body j s0 = Some s1 /\ I (j + step) s1) ->
    exists s' i', for_loop fuel i stop step body s = Some s' /\ I i' s' /\
                  stop <= i' /\ (i' = i \/ i' < stop + step) /\ (step | i' - i) /\ i <= i'.
Proof.
  intros Hstep. induction fuel as [|fuel IH]; intros i s Hf HI Hbody.
  - cbn. destruct (Z.ltb_spec i stop) as [Hlt|Hge]; [exfalso; lia|].
    exists s, i. repeat split; auto with zarith. exists 0. lia.
  - cbn [for_loop]. destruct (Z.ltb_spec i stop) as [Hlt|Hge].
    2:{ exists s, i. repeat split; auto with zarith. exists 0. lia. }
    destruct (Hbody i s) as [s1 [E1 HI1]]; [lia| exists 0; lia| exact HI |].
    rewrite E1. cbn [bind].
    destruct (IH (i + step) s1) as [s' [i' [E' [HI' [H1 [H2 [H3 H4]]]]]]].
    + lia.
    + exact HI1.
    + intros j s0 Hj [k Hk] HIj. apply Hbody; auto; [lia|]. exists (k + 1). lia.
    + exists s', i'. repeat split; auto; [ | | lia].
      * destruct H2 as [->|]; [right; lia|right; lia].
      * destruct H3 as [k Hk]. exists (k + 1). lia.
Qed.

(* Rule with the invariant indexed by the clamped position min(i, stop). *)
Lemma for_step_inv {S} (I : Z -> S -> Prop) start stop step (body : Z -> S -> option S) s :
  1 <= step -> start <= stop ->
  I start s ->
  (forall i s0, start <= i < stop -> (step | i - start) -> I i s0 ->
     exists s1, body i s0 = Some s1 /\ I (Z.min (i + step) stop) s1) ->
  exists s', for_step start stop step body s = Some s' /\ I stop s'.
Proof.
  intros Hstep Hle HI Hbody.
  destruct (for_loop_inv (fun i s0 => I (Z.min i stop) s0) stop step body Hstep
              (Z.to_nat (stop - start)) start s) as [s' [i' [E [HI' [H1 _]]]]].
  - lia.
  - rewrite Z.min_l by lia. exact HI.
  - intros j s0 Hj Hd HIj. rewrite Z.min_l in HIj by lia. apply Hbody; auto.
  - exists s'. split; [exact E|]. rewrite Z.min_r in HI' by lia. exact HI'.
Qed.

Lemma for_step_inv1 {S} (I : Z -> S -> Prop) start stop (body : Z -> S -> option S) s :
  start <= stop ->
  I start s ->
  (forall i s0, start <= i < stop -> I i s0 ->
     exists s1, body i s0 = Some s1 /\ I (i + 1) s1) ->
  exists s', for_step start stop 1 body s = Some s' /\ I stop s'.
Proof.
  intros Hle HI Hbody. apply for_step_inv; auto; [lia|].
  intros i s0 Hi _ HIi. rewrite Z.min_l by lia. apply Hbody; auto.
Qed.

Lemma for_step_empty {S} start stop step (body : Z -> S -> option S) s :
  stop <= start -> for_step start stop step body s = Some s.
Proof.
  intros H. unfold for_step. destruct (Z.to_nat (stop - start)); cbn;
    destruct (Z.ltb_spec start stop); try lia; reflexivity.
Qed.

(* ------------------------------------------------------------------ *)
(* memories *)
Lemma upd_same m a v : upd m a v a = Some v.
Proof. unfold upd. rewrite Z.eqb_refl. reflexivity. Qed.
Lemma upd_other m a v x : x <> a -> upd m a v x = m x.
Proof. intros H. unfold upd. destruct (Z.eqb_spec x a); [contradiction|reflexivity]. Qed.
Lemma wr_ok m a v w : m a = Some w -> wr m a v = Some (upd m a v).
Proof. intros H. unfold wr. rewrite H. reflexivity. Qed.

(* ------------------------------------------------------------------ *)
(* sums *)
Lemma sum_n_ext f g lo n :
  (forall i, lo <= i < lo + Z.of_nat n -> f i = g i) -> sum_n f lo n = sum_n g lo n.
Proof.
  induction n as [|n IH]; intros H; [reflexivity|].
  cbn [sum_n]. rewrite IH, H; [reflexivity|lia|]. intros; apply H; lia.
Qed.
Lemma sumZ_ext f g lo hi : (forall i, lo <= i < hi -> f i = g i) -> sumZ f lo hi = sumZ g lo hi.
Proof. intros H. apply sum_n_ext. intros; apply H; lia. Qed.
Lemma sumZ_empty f lo hi : hi <= lo -> sumZ f lo hi = 0.
Proof. intros H. unfold sumZ. replace (Z.to_nat (hi - lo)) with O by lia. reflexivity. Qed.
Lemma sumZ_last f lo hi : lo <= hi -> sumZ f lo (hi + 1) = sumZ f lo hi + f hi.
Proof.
  intros H. unfold sumZ. replace (Z.to_nat (hi + 1 - lo)) with (S (Z.to_nat (hi - lo))) by lia.
  cbn [sum_n]. f_equal. f_equal. lia.
Qed.
Lemma sum_n_split f lo n k : sum_n f lo (n + k) = sum_n f lo n + sum_n f (lo + Z.of_nat n) k.
Proof.
  induction k as [|k IH]; [rewrite Nat.add_0_r; cbn; lia|].
  rewrite Nat.add_succ_r. cbn [sum_n]. rewrite IH.
  replace (lo + Z.of_nat (n + k)) with (lo + Z.of_nat n + Z.of_nat k) by lia. lia.
Qed.
Lemma sumZ_split f lo mid hi : lo <= mid <= hi -> sumZ f lo hi = sumZ f lo mid + sumZ f mid hi.
Proof.
  intros H. unfold sumZ.
  replace (Z.to_nat (hi - lo)) with (Z.to_nat (mid - lo) + Z.to_nat (hi - mid))%nat by lia.
  rewrite sum_n_split. do 2 f_equal. lia.
Qed.
Lemma sum_n_shift f lo n k : sum_n f (lo + k) n = sum_n (fun i => f (i + k)) lo n.
Proof.
  induction n as [|n IH]; [reflexivity|]. cbn [sum_n]. rewrite IH. do 2 f_equal. lia.
Qed.
Lemma sumZ_shift f lo hi k : sumZ f (lo + k) (hi + k) = sumZ (fun i => f (i + k)) lo hi.
Proof. unfold sumZ. replace (hi + k - (lo + k)) with (hi - lo) by lia. apply sum_n_shift. Qed.
Lemma sumZ_add f g lo hi : sumZ (fun i => f i + g i) lo hi = sumZ f lo hi + sumZ g lo hi.
Proof.
  unfold sumZ. induction (Z.to_nat (hi - lo)) as [|n IH]; [reflexivity|]. cbn [sum_n]. lia.
Qed.
Lemma sumZ_mul_l f c lo hi : sumZ (fun i => c * f i) lo hi = c * sumZ f lo hi.
Proof.
  unfold sumZ. induction (Z.to_nat (hi - lo)) as [|n IH]; cbn [sum_n]; [lia|]. rewrite IH. ring.
Qed.
Lemma sumZ_const c lo hi : lo <= hi -> sumZ (fun _ => c) lo hi = c * (hi - lo).
Proof.
  intros H. unfold sumZ.
  assert (G : forall n, sum_n (fun _ => c) lo n = c * Z.of_nat n).
  { induction n as [|n IH]; cbn [sum_n]; lia. }
  rewrite G. f_equal. lia.
Qed.
Lemma sumZ_zero f lo hi : (forall i, lo <= i < hi -> f i = 0) -> sumZ f lo hi = 0.
Proof.
  intros H. rewrite (sumZ_ext f (fun _ => 0)) by exact H.
  destruct (Z.le_gt_cases lo hi); [rewrite sumZ_const by lia; lia|apply sumZ_empty; lia].
Qed.
Lemma sumZ_bound f lo hi A B :
  lo <= hi -> (forall i, lo <= i < hi -> A <= f i <= B) ->
  A * (hi - lo) <= sumZ f lo hi <= B * (hi - lo).
Proof.
  intros Hle H. unfold sumZ.
  assert (G : forall n, lo + Z.of_nat n <= hi ->
            A * Z.of_nat n <= sum_n f lo n <= B * Z.of_nat n).
  { induction n as [|n IH]; intros Hn; cbn [sum_n]; [lia|].
    pose proof (H (lo + Z.of_nat n) ltac:(lia)). specialize (IH ltac:(lia)). lia. }
  specialize (G (Z.to_nat (hi - lo)) ltac:(lia)). rewrite Z2Nat.id in G by lia. exact G.
Qed.

Lemma Some_inj {A} (x y : A) : Some x = Some y -> x = y.
Proof. congruence. Qed.
