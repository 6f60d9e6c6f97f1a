(* FixedPointProofs4.v: an evaluation that does not overflow (mode Trap) gives
   the same result with wrapping arithmetic. *)
From Verif Require Import BaseLemmas FixedPointModel FixedPointSpec FixedPointProofs.

Definition agree {A} (t w : option A) : Prop := forall r, t = Some r -> w = Some r.
Lemma agree_refl {A} (x : option A) : agree x x.
Proof. intros r E. exact E. Qed.
Lemma agree_bind {A B} (t w : option A) (f g : A -> option B) :
  agree t w -> (forall x, agree (f x) (g x)) -> agree (bind t f) (bind w g).
Proof.
  intros H1 H2 r E. destruct t as [x|]; [|discriminate]. cbn [bind] in E.
  rewrite (H1 x eq_refl). cbn [bind]. apply H2. exact E.
Qed.
Lemma agree_norm w z : 1 <= w -> agree (norm Trap w z) (norm Wrap w z).
Proof.
  intros Hw r E. cbn [norm] in *. destruct (in_int w z) eqn:F; [|discriminate]. injection E as <-.
  f_equal. apply wrapS_small; [exact Hw|]. unfold in_int in F. lia.
Qed.
Lemma agree_if {A} (b : bool) (t t' w w' : option A) : agree t w -> agree t' w' ->
  agree (if b then t else t') (if b then w else w').
Proof. destruct b; auto. Qed.

Ltac agree :=
  repeat first
    [ apply agree_refl
    | apply agree_bind; [|intros ?]
    | apply agree_norm; lia
    | apply agree_if ].

Lemma agree_one_shl k : agree (one_shl_int Trap k) (one_shl_int Wrap k).
Proof. unfold one_shl_int. agree. Qed.
Lemma agree_rdpot w x e : 1 <= w -> agree (RoundingDivideByPOT Trap w x e) (RoundingDivideByPOT Wrap w x e).
Proof. intros Hw. unfold RoundingDivideByPOT, Add. agree. Qed.
Lemma agree_shl w a k : agree (ShiftLeft Trap w a k) (ShiftLeft Wrap w a k).
Proof. unfold ShiftLeft. apply agree_bind; [apply agree_one_shl|]. intros; agree. Qed.
Lemma agree_srm w e x : 1 <= w ->
  agree (SaturatingRoundingMultiplyByPOT Trap w e x) (SaturatingRoundingMultiplyByPOT Wrap w e x).
Proof.
  intros Hw. unfold SaturatingRoundingMultiplyByPOT. apply agree_if; [agree|]. apply agree_if; [|apply agree_rdpot; exact Hw].
  apply agree_bind; [apply agree_one_shl|]. intros p. apply agree_bind; [apply agree_shl|]. intros; agree.
Qed.
Lemma agree_rescale w s d x : 1 <= w -> agree (Rescale Trap w s d x) (Rescale Wrap w s d x).
Proof. intros Hw. apply agree_srm. exact Hw. Qed.
Lemma agree_rci w v : agree (RescaleConstantInitializer Trap w v) (RescaleConstantInitializer Wrap w v).
Proof. unfold RescaleConstantInitializer. apply agree_bind; [apply agree_rdpot; lia|]. intros; agree. Qed.
Lemma agree_newton_step w h x : 1 <= w -> agree (newton_step Trap w h x) (newton_step Wrap w h x).
Proof.
  intros Hw. unfold newton_step, Sub, Add. apply agree_bind; [agree|]. intros om.
  apply agree_bind; [apply agree_rescale; exact Hw|]. intros d. agree.
Qed.
Lemma agree_newton w a : 1 <= w -> agree (newton_reciprocal Trap w a) (newton_reciprocal Wrap w a).
Proof.
  intros Hw. unfold newton_reciprocal, Add. apply agree_bind; [apply agree_rci|]. intros c.
  apply agree_bind; [apply agree_rci|]. intros c'. apply agree_bind; [agree|]. intros x0.
  apply agree_bind; [apply agree_newton_step; exact Hw|]. intros x1.
  apply agree_bind; [apply agree_newton_step; exact Hw|]. intros x2. apply agree_newton_step. exact Hw.
Qed.
Lemma agree_exp_interval w a : 1 <= w -> agree (exp_on_interval Trap w a) (exp_on_interval Wrap w a).
Proof.
  intros Hw. unfold exp_on_interval, Add, AddSaturatingIf16Bit.
  repeat first
    [ apply agree_rci | apply agree_refl | apply agree_norm; exact Hw | apply agree_srm; exact Hw
    | apply agree_if | apply agree_bind; [|intros ?] ].
Qed.
Lemma agree_barrel w ib rem e k r :
  agree (exp_barrel_shifter Trap w ib rem e k r) (exp_barrel_shifter Wrap w ib rem e k r).
Proof.
  unfold exp_barrel_shifter.
  repeat first [ apply agree_rci | apply agree_one_shl | apply agree_refl | apply agree_if | apply agree_bind; [|intros ?] ].
Qed.
Lemma agree_exp w ib a : 1 <= w -> agree (exp_on_negative_values Trap w ib a) (exp_on_negative_values Wrap w ib a).
Proof.
  intros Hw. unfold exp_on_negative_values, Sub.
  repeat first
    [ apply agree_rci | apply agree_barrel | apply agree_refl | apply agree_norm; exact Hw | apply agree_one_shl
    | apply agree_rescale; exact Hw | apply agree_exp_interval; exact Hw
    | apply agree_if | apply agree_bind; [|intros ?] ].
Qed.
Lemma agree_one_minus w a : 1 <= w -> agree (one_minus_x_over_one_plus_x Trap w a) (one_minus_x_over_one_plus_x Wrap w a).
Proof.
  intros Hw. unfold one_minus_x_over_one_plus_x, Sub. apply agree_bind; [apply agree_newton; exact Hw|]. intros x.
  apply agree_bind; [agree|]. intros d. apply agree_rescale. exact Hw.
Qed.
Lemma agree_one_over w a : 1 <= w -> agree (one_over_one_plus_x Trap w a) (one_over_one_plus_x Wrap w a).
Proof.
  intros Hw. unfold one_over_one_plus_x. apply agree_bind; [apply agree_newton; exact Hw|]. intros x.
  apply agree_rescale. exact Hw.
Qed.
Lemma agree_tanh w ib a : 1 <= w -> agree (ftanh Trap w ib a) (ftanh Wrap w ib a).
Proof.
  intros Hw. unfold ftanh, Neg, neg_tanh_on_negative_values.
  repeat first [ apply agree_refl | apply agree_norm; exact Hw | apply agree_exp; exact Hw
    | apply agree_one_minus; exact Hw | apply agree_bind; [|intros ?] ].
Qed.
Lemma agree_logistic w ib a : 1 <= w -> agree (logistic Trap w ib a) (logistic Wrap w ib a).
Proof.
  intros Hw. unfold logistic, Neg, Sub, logistic_on_positive_values, Neg.
  repeat first [ apply agree_refl | apply agree_norm; exact Hw | apply agree_exp; exact Hw | apply agree_rci
    | apply agree_one_over; exact Hw | apply agree_bind; [|intros ?] ].
Qed.
