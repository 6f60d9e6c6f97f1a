(* FixedPointProofs5.v: range and symmetry of tanh and logistic. *)
From Verif Require Import BaseLemmas FixedPointModel FixedPointSpec FixedPointProofs FixedPointProofs2 FixedPointProofs3.

Lemma w1632_pos w : w1632 w -> 1 <= w.
Proof. intros [-> | ->]; lia. Qed.
Lemma One0 w : One w 0 = 2 ^ (w - 1) - 1.
Proof. reflexivity. Qed.
Lemma pow_w w : w1632 w -> 32768 <= 2 ^ (w - 1).
Proof. intros [-> | ->]; cbn; lia. Qed.

Lemma Neg_ok m w a : w1632 w -> fits w a -> a <> - 2 ^ (w - 1) -> Neg m w a = Some (- a).
Proof.
  intros Hw Ha Hn. unfold Neg. apply norm_fits; [apply w1632_pos; exact Hw|]. unfold fits in Ha.
  unfold int_min, int_max. lia.
Qed.

(* what tanh computes on a nonpositive number, negated *)
Lemma neg_tanh_ok m w ib a : w1632 w -> 0 <= ib <= w - 4 -> fits w a -> a <= 0 ->
  exists t, neg_tanh_on_negative_values m w ib a = Some t /\ -28 <= t <= 2 ^ (w - 1) - 1.
Proof.
  intros Hw Hib Ha Ha0. unfold neg_tanh_on_negative_values, ExactMulByPot.
  destruct (exp_negative_in_range m w (ib + 1) a Hw ltac:(lia) Ha Ha0) as [e [-> [Be _]]]. cbn [bind].
  destruct (one_minus_over_ok m w e Hw) as [t [E [B _]]].
  { unfold int_max. rewrite One0 in Be. lia. }
  exists t. split; [exact E|]. rewrite One0 in B. lia.
Qed.

Definition sgn_apply (a t : Z) : Z := if a =? 0 then 0 else if a <? 0 then - t else t.

Lemma tanh_eq m w ib a : w1632 w -> 0 <= ib <= w - 4 -> fits w a -> a <> - 2 ^ (w - 1) ->
  exists t, neg_tanh_on_negative_values m w ib (- Z.abs a) = Some t /\ -28 <= t <= 2 ^ (w - 1) - 1 /\
    ftanh m w ib a = Some (sgn_apply a t).
Proof.
  intros Hw Hib Ha Hn. pose proof (pow_w w Hw) as Hp. unfold fits in Ha.
  destruct (neg_tanh_ok m w ib (- Z.abs a) Hw Hib) as [t [E B]]; [unfold fits; lia|lia|].
  exists t. split; [exact E|]. split; [exact B|].
  unfold ftanh. rewrite Neg_ok by (try exact Hw; try unfold fits; lia). cbn [bind].
  rewrite MaskIfLessThan_eq, MaskIfZero_eq, !sel_mask.
  replace (if a <? 0 then a else - a) with (- Z.abs a) by (destruct (Z.ltb_spec a 0); lia).
  rewrite E. cbn [bind]. rewrite Neg_ok by (try exact Hw; try unfold fits; lia). cbn [bind].
  rewrite !sel_mask. reflexivity.
Qed.

Theorem tanh_ok m w ib a : w1632 w -> 0 <= ib <= w - 4 -> fits w a -> a <> - 2 ^ (w - 1) ->
  exists r, ftanh m w ib a = Some r /\ - One w 0 <= r <= One w 0 /\
    ftanh m w ib (- a) = Some (- r) /\ (a = 0 -> r = 0).
Proof.
  intros Hw Hib Ha Hn. pose proof (pow_w w Hw) as Hp.
  destruct (tanh_eq m w ib a Hw Hib Ha Hn) as [t [E [B ET]]].
  unfold fits in Ha.
  destruct (tanh_eq m w ib (- a) Hw Hib) as [t' [E' [B' ET']]]; [unfold fits; lia|lia|].
  rewrite Z.abs_opp, E in E'. injection E' as <-.
  exists (sgn_apply a t). split; [exact ET|]. rewrite One0. unfold sgn_apply in *.
  split; [|split].
  - destruct (a =? 0); [lia|]. destruct (a <? 0); lia.
  - rewrite ET'. f_equal. destruct (Z.eqb_spec a 0), (Z.eqb_spec (- a) 0), (Z.ltb_spec a 0), (Z.ltb_spec (- a) 0); lia.
  - intros ->. reflexivity.
Qed.

Lemma logistic_pos_ok m w ib a : w1632 w -> 0 <= ib <= w - 3 -> fits w a -> 0 <= a ->
  exists t, logistic_on_positive_values m w ib a = Some t /\ 0 <= t <= 2 ^ (w - 1) - 1.
Proof.
  intros Hw Hib Ha Ha0. pose proof (pow_w w Hw) as Hp. unfold fits in Ha. unfold logistic_on_positive_values.
  rewrite Neg_ok by (try exact Hw; try unfold fits; lia). cbn [bind].
  destruct (exp_negative_in_range m w ib (- a) Hw Hib) as [e [-> [Be _]]]; [unfold fits; lia|lia|]. cbn [bind].
  destruct (one_over_ok m w e Hw) as [t [E [B _]]].
  { unfold int_max. rewrite One0 in Be. lia. }
  exists t. split; [exact E|]. rewrite One0 in B. lia.
Qed.

Definition logistic_select (w a t : Z) : Z :=
  if a =? 0 then 2 ^ (w - 2) else if a >? 0 then t else 2 ^ (w - 1) - 1 - t.

Lemma one_half_ok m w : w1632 w -> RescaleConstantInitializer m w (2 ^ 30) = Some (2 ^ (w - 2)).
Proof.
  intros Hw. rewrite rci_eq; [|exact Hw|apply fits32; lia]. f_equal. destruct Hw; subst w; reflexivity.
Qed.

Lemma logistic_eq m w ib a : w1632 w -> 0 <= ib <= w - 3 -> fits w a -> a <> - 2 ^ (w - 1) ->
  exists t, logistic_on_positive_values m w ib (Z.abs a) = Some t /\ 0 <= t <= 2 ^ (w - 1) - 1 /\
    logistic m w ib a = Some (logistic_select w a t).
Proof.
  intros Hw Hib Ha Hn. pose proof (pow_w w Hw) as Hp. unfold fits in Ha.
  destruct (logistic_pos_ok m w ib (Z.abs a) Hw Hib) as [t [E B]]; [unfold fits; lia|lia|].
  exists t. split; [exact E|]. split; [exact B|].
  unfold logistic. rewrite Neg_ok by (try exact Hw; try unfold fits; lia). cbn [bind].
  rewrite MaskIfGreaterThan_eq, MaskIfZero_eq, !sel_mask.
  replace (if a >? 0 then a else - a) with (Z.abs a) by (destruct (Z.gtb_spec a 0); lia).
  rewrite E. cbn [bind]. rewrite One0. unfold Sub.
  rewrite norm_fits; [|apply w1632_pos; exact Hw|unfold int_min, int_max; lia]. cbn [bind].
  rewrite one_half_ok by exact Hw. cbn [bind]. rewrite !sel_mask. reflexivity.
Qed.

Theorem logistic_ok m w ib a : w1632 w -> 0 <= ib <= w - 3 -> fits w a -> a <> - 2 ^ (w - 1) ->
  exists r, logistic m w ib a = Some r /\ 0 <= r <= One w 0 /\
    (a <> 0 -> logistic m w ib (- a) = Some (One w 0 - r)) /\ (a = 0 -> r = 2 ^ (w - 2)).
Proof.
  intros Hw Hib Ha Hn. pose proof (pow_w w Hw) as Hp.
  destruct (logistic_eq m w ib a Hw Hib Ha Hn) as [t [E [B ET]]].
  unfold fits in Ha.
  destruct (logistic_eq m w ib (- a) Hw Hib) as [t' [E' [B' ET']]]; [unfold fits; lia|lia|].
  rewrite Z.abs_opp, E in E'. injection E' as <-.
  exists (logistic_select w a t). split; [exact ET|]. rewrite One0. unfold logistic_select in *.
  assert (W : 0 <= 2 ^ (w - 2) <= 2 ^ (w - 1) - 1) by (destruct Hw; subst w; cbn; lia).
  split; [|split].
  - destruct (a =? 0); [lia|]. destruct (a >? 0); lia.
  - intros H0. rewrite ET'. f_equal.
    destruct (Z.eqb_spec a 0), (Z.eqb_spec (- a) 0), (Z.gtb_spec a 0), (Z.gtb_spec (- a) 0); lia.
  - intros ->. reflexivity.
Qed.

(* on the minimum, both negate their argument: undefined behaviour *)
Theorem minimum_overflow_refuted w ib : w1632 w ->
  ftanh Trap w ib (- 2 ^ (w - 1)) = None /\ logistic Trap w ib (- 2 ^ (w - 1)) = None.
Proof. intros [-> | ->]; split; reflexivity. Qed.

(* 16-bit tanh has the wrong sign on the smallest positive inputs *)
Theorem tanh_sign_refuted : exists a r, 0 < a /\ ftanh Trap 16 0 a = Some r /\ r < 0.
Proof. exists 1, (-8). split; [lia|]. split; [vm_compute; reflexivity|lia]. Qed.
