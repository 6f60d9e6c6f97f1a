(* AccuracyProps.v: the accuracy lemmas in the form of AccuracySpec. *)
From Coq Require Import Reals Lra.
From Verif Require Import Base BaseLemmas FixedPointModel FixedPointSpec FixedPointProofs FixedPointProofs2 FixedPointProofs3 FixedPointProofs5
  ExpReal ExpAccuracy AccuracySpec.
Local Open Scope R_scope.

Lemma fixed_value0 w r : fixed_value w 0 r = IZR r / Uw w.
Proof. unfold fixed_value, Uw. rewrite Z.sub_0_r. reflexivity. Qed.

Lemma to_ulps w r y b : w1632 w -> Rabs (IZR r - Uw w * y) <= b -> Rabs (fixed_value w 0 r - y) <= b * ulp w.
Proof.
  intros Hw H. pose proof (Uw_pos w Hw) as HU. rewrite fixed_value0. unfold ulp. fold (Uw w).
  replace (IZR r / Uw w - y) with ((IZR r - Uw w * y) * / Uw w) by (field; lra).
  assert (0 < / Uw w) by (apply Rinv_0_lt_compat; lra).
  rewrite Rabs_mult, (Rabs_right (/ Uw w)) by lra. apply Rmult_le_compat_r; lra.
Qed.

Theorem exp_accurate m w ib a : w = 16%Z \/ w = 32%Z -> (0 <= ib <= w - 3)%Z -> fits w a -> (a <= 0)%Z ->
  exists r, exp_on_negative_values m w ib a = Some r /\ Rabs (fixed_value w 0 r - exp (fixed_value w ib a)) <= exp_ulps w * ulp w.
Proof.
  intros Hw Hib Hf Ha. destruct (exp_acc m w ib a Hw Hib Hf Ha) as (r & E & _ & A & _). exists r. split; [exact E|].
  apply to_ulps; [exact Hw|exact A].
Qed.

Theorem logistic_accurate m w ib a : w = 16%Z \/ w = 32%Z -> (0 <= ib <= w - 3)%Z -> fits w a -> (a <> - 2 ^ (w - 1))%Z ->
  exists r, logistic m w ib a = Some r /\ Rabs (fixed_value w 0 r - logistic_function (fixed_value w ib a)) <= logistic_ulps w * ulp w.
Proof.
  intros Hw Hib Hf Ha. destruct (logistic_acc m w ib a Hw Hib Hf Ha) as (r & E & A). exists r. split; [exact E|].
  apply to_ulps; [exact Hw|]. exact A.
Qed.

Theorem tanh_accurate m w ib a : w = 16%Z \/ w = 32%Z -> (0 <= ib <= w - 4)%Z -> fits w a -> (a <> - 2 ^ (w - 1))%Z ->
  exists r, ftanh m w ib a = Some r /\ Rabs (fixed_value w 0 r - tanh (fixed_value w ib a)) <= tanh_ulps w * ulp w.
Proof.
  intros Hw Hib Hf Ha. destruct (tanh_acc m w ib a Hw Hib Hf Ha) as (r & E & A). exists r. split; [exact E|].
  apply to_ulps; [exact Hw|]. exact A.
Qed.

(* exp (-1/4) with 32 bits *)
Lemma exp_error_reached : exists r, exp_on_negative_values Trap 32 0 (-536870912) = Some r /\
  Rabs (fixed_value 32 0 r - exp (fixed_value 32 0 (-536870912))) > 472 * ulp 32.
Proof.
  exists 1672462419%Z. split; [vm_compute; reflexivity|]. rewrite !fixed_value0. unfold ulp. fold (Uw 32). rewrite Uw32.
  replace (-536870912 / 2147483648) with (- (1 / 4)) by lra. pose proof exp_m4 as H.
  rewrite Rabs_right; lra.
Qed.

Lemma exp_example_32 : exp_on_negative_values Trap 32 5 (-67108864) = Some 790015308%Z /\ fixed_value 32 5 (-67108864) = - (1) /\
  fits 32 (-67108864) /\ 36787954 / 100000000 < fixed_value 32 0 790015308 < 36787955 / 100000000 /\
  36787944 / 100000000 < exp (- (1)) < 36787945 / 100000000.
Proof.
  split; [vm_compute; reflexivity|]. split; [unfold fixed_value; change (2 ^ (32 - 1 - 5))%Z with 67108864%Z; lra|].
  split; [unfold fits; cbn; lia|]. rewrite fixed_value0, Uw32. pose proof exp_m1. split; split; lra.
Qed.

Lemma logistic_example_16 : logistic Trap 16 3 4096 = Some 23952%Z /\ fixed_value 16 3 4096 = 1 /\
  7309 / 10000 < fixed_value 16 0 23952 < 7310 / 10000 /\ 7310 / 10000 < logistic_function 1 < 7311 / 10000.
Proof.
  split; [vm_compute; reflexivity|]. split; [unfold fixed_value; change (2 ^ (16 - 1 - 3))%Z with 4096%Z; lra|].
  rewrite fixed_value0, Uw16. split; [split; lra|]. unfold logistic_function. pose proof exp_m1.
  assert (1 / (1 + exp (- (1))) * (1 + exp (- (1))) = 1) by (field; lra).
  replace (- 1) with (- (1)) in * by lra. split; nra.
Qed.

Lemma tanh_example_16 : ftanh Trap 16 3 (-2048) = Some (-15136)%Z /\ fixed_value 16 3 (-2048) = - (1 / 2) /\
  - (4620 / 10000) < fixed_value 16 0 (-15136) < - (4619 / 10000) /\ - (4622 / 10000) < tanh (- (1 / 2)) < - (4621 / 10000).
Proof.
  split; [vm_compute; reflexivity|]. split; [unfold fixed_value; change (2 ^ (16 - 1 - 3))%Z with 4096%Z; lra|].
  rewrite fixed_value0, Uw16. split; [split; lra|].
  replace (tanh (- (1 / 2))) with (- tanh (1 / 2)).
  2: { unfold tanh, sinh, cosh. rewrite Ropp_involutive. pose proof (exp_pos (1 / 2)). pose proof (exp_pos (- (1 / 2))). field. lra. }
  rewrite tanh_exp. replace (- (2 * (1 / 2))) with (- (1)) by lra. pose proof exp_m1.
  assert ((1 - exp (- (1))) / (1 + exp (- (1))) * (1 + exp (- (1))) = 1 - exp (- (1))) by (field; lra). split; nra.
Qed.

(* ------------------------------------------------------------------ *)
(* the tolerances of the tests *)
Lemma reference_close w y q r b : w1632 w -> (0 <= r <= int_max w)%Z -> reference w y q -> Rabs (IZR r - Uw w * y) <= IZR b -> (0 <= b)%Z ->
  (Z.abs (r - q) <= b)%Z.
Proof.
  intros Hw Hr (n & Hn & ->) H Hb. fold (Uw w) in Hn.
  assert (D : Rabs (IZR (r - n)) <= IZR b + 1 / 2) by (rewrite minus_IZR; rewrite Rabs_le_iff in *; lra).
  assert (D' : (Z.abs (r - n) <= b)%Z).
  { rewrite Rabs_Zabs in D. apply Z.lt_succ_r. apply lt_IZR. rewrite succ_IZR. lra. }
  unfold int_max in Hr. pose proof (pow_w w Hw). lia.
Qed.

Theorem exp_test_tolerance m ib a q : (0 <= ib <= 29)%Z -> fits 32 a -> (a <= 0)%Z -> reference 32 (exp (fixed_value 32 ib a)) q ->
  exists r, exp_on_negative_values m 32 ib a = Some r /\ (Z.abs (r - q) <= 500)%Z.
Proof.
  intros Hib Hf Ha Hq. assert (Hw : w1632 32) by (right; reflexivity).
  destruct (exp_acc m 32 ib a Hw ltac:(lia) Hf Ha) as (r & E & B & A & _). exists r. split; [exact E|].
  unfold exp_err in A. cbn [Z.eqb Pos.eqb] in A.
  pose proof (reference_close 32 _ q r 495 Hw B Hq A ltac:(lia)). lia.
Qed.
Theorem exp_interval_test_tolerance m a q : (- 2 ^ 29 <= a <= -1)%Z -> reference 32 (exp (fixed_value 32 0 a)) q ->
  exists r, exp_on_interval m 32 a = Some r /\ (Z.abs (r - q) <= 500)%Z.
Proof.
  intros Ha Hq. assert (Hw : w1632 32) by (right; reflexivity).
  destruct (interval_acc m 32 a Hw Ha) as (r & E & B & A & _). exists r. split; [exact E|].
  unfold exp_err in A. cbn [Z.eqb Pos.eqb] in A. rewrite fixed_value0 in Hq.
  pose proof (reference_close 32 _ q r 495 Hw B Hq A ltac:(lia)). lia.
Qed.

Lemma mk_reference w y q : w1632 w -> (- 2 ^ (w - 1) <= q < 2 ^ (w - 1))%Z -> Rabs (IZR q - Uw w * y) <= 1 / 2 -> reference w y q.
Proof. intros Hw Hq H. exists q. split; [exact H|]. lia. Qed.

Lemma exp_interval_16_exceeds : exists r q, exp_on_interval Trap 16 (-8031) = Some r /\ reference 16 (exp (fixed_value 16 0 (-8031))) q /\
  (Z.abs (r - q) > 1)%Z.
Proof.
  exists 25647%Z, 25645%Z. split; [vm_compute; reflexivity|]. split; [|lia].
  apply mk_reference; [left; reflexivity|lia|]. rewrite fixed_value0, Uw16.
  replace (-8031 / 32768) with (- (1 / 8) + - (3935 / 32768)) by lra. rewrite exp_plus.
  pose proof (exp_poly4 (- (3935 / 32768)) ltac:(apply Rabs_le_iff; lra)) as H. unfold poly4 in H. pose proof exp_m8 as H8.
  set (x := exp (- (3935 / 32768))) in *. set (c := exp (- (1 / 8))) in *.
  rewrite Rabs_le_iff in H. assert (Bx : 88 / 100 <= x) by lra.
  assert (88249690 / 100000000 * x <= c * x <= 88249691 / 100000000 * x) by (split; apply Rmult_le_compat_r; lra).
  apply Rabs_le_iff. lra.
Qed.
Lemma logistic_16_exceeds : exists r q, logistic Trap 16 1 (-31137) = Some r /\
  reference 16 (logistic_function (fixed_value 16 1 (-31137))) q /\ (Z.abs (r - q) > 6)%Z.
Proof.
  exists 4255%Z, 4262%Z. split; [vm_compute; reflexivity|]. split; [|lia].
  apply mk_reference; [left; reflexivity|lia|]. unfold logistic_function, fixed_value. change (2 ^ (16 - 1 - 1))%Z with 16384%Z. rewrite Uw16.
  replace (- (-31137 / 16384)) with (- (- (2) + 1631 / 16384)) by lra. rewrite exp_Ropp, exp_plus.
  pose proof (exp_poly4 (1631 / 16384) ltac:(apply Rabs_le_iff; lra)) as H. unfold poly4 in H. pose proof exp_2 as H8.
  set (x := exp (1631 / 16384)) in *. set (c := exp (- (2))) in *.
  rewrite Rabs_le_iff in H. assert (Bx : 1104 / 1000 <= x <= 1105 / 1000) by lra.
  assert (13533528 / 100000000 * x <= c * x <= 13533529 / 100000000 * x) by (split; apply Rmult_le_compat_r; lra).
  set (e := c * x) in *. assert (Be : 1495009 / 10000000 <= e <= 1495014 / 10000000) by lra.
  replace (1 / (1 + / e)) with (1 - / (1 + e)) by (field; lra).
  set (z := / (1 + e)). assert (Ez : (1 + e) * z = 1) by (unfold z; field; lra).
  assert (Bz : 0 < z) by (unfold z; apply Rinv_0_lt_compat; lra).
  assert (11495009 / 10000000 * z <= 1 <= 11495014 / 10000000 * z) by (rewrite <- Ez; split; apply Rmult_le_compat_r; lra).
  apply Rabs_le_iff. lra.
Qed.

Lemma ratio_reference w n d q : w1632 w -> (0 < d)%Z -> (- 2 ^ (w - 1) <= q < 2 ^ (w - 1))%Z -> nearest q (2 ^ (w - 1) * n) d ->
  reference w (IZR n / IZR d) q.
Proof.
  intros Hw Hd Hq N. apply mk_reference; [exact Hw|exact Hq|]. apply nearest_R in N. apply IZR_lt in Hd.
  rewrite mult_IZR in N. fold (Uw w) in N.
  replace (IZR q - Uw w * (IZR n / IZR d)) with ((IZR q * IZR d - Uw w * IZR n) * / IZR d) by (field; lra).
  rewrite Rabs_mult, (Rabs_right (/ IZR d)) by (left; apply Rinv_0_lt_compat; lra).
  replace (1 / 2) with (IZR d / 2 * / IZR d) by (field; lra). apply Rmult_le_compat_r; [left; apply Rinv_0_lt_compat; lra|exact N].
Qed.
Ltac div_eq := unfold fixed_value; match goal with |- context [(2 ^ (?a - 1 - 0))%Z] => let v := eval compute in (2 ^ (a - 1 - 0))%Z in change (2 ^ (a - 1 - 0))%Z with v end; field; lra.
Definition w16 : w1632 16 := or_introl eq_refl.
Definition w32 : w1632 32 := or_intror eq_refl.
Ltac exceed n d := match goal with |- reference _ ?y _ => replace y with (IZR n / IZR d) by div_eq end;
  apply ratio_reference; [first [exact w16|exact w32]|lia|cbn; lia|unfold nearest; cbn; lia].

Lemma one_over_exceeds :
  (exists a r q, (0 <= a < 2 ^ 15)%Z /\ one_over_one_plus_x Trap 16 a = Some r /\ reference 16 (1 / (1 + fixed_value 16 0 a)) q /\ (Z.abs (r - q) > 5)%Z) /\
  (exists a r q, (0 <= a < 2 ^ 31)%Z /\ one_over_one_plus_x Trap 32 a = Some r /\ reference 32 (1 / (1 + fixed_value 32 0 a)) q /\ (Z.abs (r - q) > 6)%Z).
Proof.
  split.
  - exists 4817%Z, 28574%Z, 28568%Z. split; [lia|]. split; [vm_compute; reflexivity|]. split; [|lia].
    exceed 32768%Z 37585%Z.
  - exists 301889%Z, 2147181808%Z, 2147181801%Z. split; [lia|]. split; [vm_compute; reflexivity|]. split; [|lia].
    exceed 2147483648%Z 2147785537%Z.
Qed.
Lemma one_minus_over_exceeds :
  (exists a r q, (0 <= a < 2 ^ 15)%Z /\ one_minus_x_over_one_plus_x Trap 16 a = Some r /\
     reference 16 ((1 - fixed_value 16 0 a) / (1 + fixed_value 16 0 a)) q /\ (Z.abs (r - q) > 11)%Z) /\
  (exists a r q, (0 <= a < 2 ^ 31)%Z /\ one_minus_x_over_one_plus_x Trap 32 a = Some r /\
     reference 32 ((1 - fixed_value 32 0 a) / (1 + fixed_value 32 0 a)) q /\ (Z.abs (r - q) > 12)%Z).
Proof.
  split.
  - exists 4899%Z, 24256%Z, 24244%Z. split; [lia|]. split; [vm_compute; reflexivity|]. split; [|lia].
    exceed 27869%Z 37667%Z.
  - exists 27400189%Z, 2093373684%Z, 2093373670%Z. split; [lia|]. split; [vm_compute; reflexivity|]. split; [|lia].
    exceed 2120083459%Z 2174883837%Z.
Qed.

Lemma exp_reference_example : reference 32 (exp (fixed_value 32 0 (-536870912))) 1672461947 /\
  exp_on_negative_values Trap 32 0 (-536870912) = Some 1672462419%Z.
Proof.
  split; [|vm_compute; reflexivity]. apply mk_reference; [exact w32|lia|]. rewrite fixed_value0, Uw32.
  replace (-536870912 / 2147483648) with (- (1 / 4)) by lra. pose proof exp_m4. apply Rabs_le_iff. lra.
Qed.
