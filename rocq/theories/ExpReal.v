(* ExpReal.v: bounds on the real exponential function of the standard library
   (axioms of Coq.Reals).  Nothing here refers to the model. *)
From Coq Require Import Reals Lra Lia.
Local Open Scope R_scope.

Lemma limit_bound (u : nat -> R) (l s B : R) (N : nat) :
  Un_cv u l -> (forall n, (N <= n)%nat -> Rabs (u n - s) <= B) -> Rabs (l - s) <= B.
Proof.
  intros Hc Hb. destruct (Rle_or_lt (Rabs (l - s)) B) as [H|H]; [exact H|]. exfalso.
  destruct (Hc (Rabs (l - s) - B) ltac:(lra)) as (M & HM).
  set (n := Nat.max N M). specialize (HM n ltac:(unfold n; lia)). specialize (Hb n ltac:(unfold n; lia)).
  unfold R_dist in HM. revert H HM Hb. unfold Rabs. destruct (Rcase_abs _), (Rcase_abs _), (Rcase_abs _); lra.
Qed.

Definition term (x : R) (i : nat) : R := / INR (fact i) * x ^ i.
Lemma exp_cv x : Un_cv (sum_f_R0 (term x)) (exp x).
Proof. unfold exp. destruct (exist_exp x) as (l & Hl). cbn. exact Hl. Qed.

Lemma term_next x i : term x (S i) = term x i * x * / INR (S i).
Proof.
  unfold term. rewrite fact_simpl, mult_INR. cbn [pow]. rewrite Rinv_mult. ring.
Qed.
(* |x| <= 1/2: each term is at most half of the one before *)
Lemma term_half x i : Rabs x <= 1 / 2 -> Rabs (term x (S i)) <= Rabs (term x i) / 2.
Proof.
  intros Hx. rewrite term_next, !Rabs_mult.
  assert (0 <= Rabs (term x i)) by apply Rabs_pos. assert (0 <= Rabs x) by apply Rabs_pos.
  assert (P : 0 < / INR (S i) <= 1).
  { assert (1 <= INR (S i)) by (rewrite S_INR; pose proof (pos_INR i); lra). split; [apply Rinv_0_lt_compat; lra|].
    rewrite <- Rinv_1. apply Rinv_le_contravar; lra. }
  rewrite (Rabs_right (/ INR (S i))) by lra.
  assert (Rabs (term x i) * Rabs x <= Rabs (term x i) * (1 / 2)) by (apply Rmult_le_compat_l; lra).
  assert (0 <= Rabs (term x i) * Rabs x) by (apply Rmult_le_pos; lra). 
  assert (Rabs (term x i) * Rabs x * / INR (S i) <= Rabs (term x i) * Rabs x * 1) by (apply Rmult_le_compat_l; lra). lra.
Qed.
Lemma tail_bound x N : Rabs x <= 1 / 2 -> forall d,
  Rabs (sum_f_R0 (term x) (N + d) - sum_f_R0 (term x) N) <= 2 * Rabs (term x (S N)) - 2 * (Rabs (term x (S N)) / 2 ^ d) /\
  Rabs (term x (S N + d)) <= Rabs (term x (S N)) / 2 ^ d.
Proof.
  intros Hx. induction d as [|d (IH1 & IH2)].
  - rewrite !Nat.add_0_r. cbn [pow]. replace (sum_f_R0 (term x) N - sum_f_R0 (term x) N) with 0 by ring. rewrite Rabs_R0. split; lra.
  - assert (P : 0 < 2 ^ d) by (apply pow_lt; lra). split.
    + replace (N + S d)%nat with (S (N + d)) by lia. cbn [sum_f_R0].
      replace (sum_f_R0 (term x) (N + d) + term x (S (N + d)) - sum_f_R0 (term x) N)
        with ((sum_f_R0 (term x) (N + d) - sum_f_R0 (term x) N) + term x (S N + d)) by (replace (S N + d)%nat with (S (N + d)) by lia; ring).
      eapply Rle_trans; [apply Rabs_triang|]. cbn [pow].
      replace (Rabs (term x (S N)) / (2 * 2 ^ d)) with (Rabs (term x (S N)) / 2 ^ d / 2) by (field; lra). lra.
    + replace (S N + S d)%nat with (S (S N + d)) by lia. eapply Rle_trans; [apply term_half; exact Hx|]. cbn [pow].
      replace (Rabs (term x (S N)) / (2 * 2 ^ d)) with (Rabs (term x (S N)) / 2 ^ d / 2) by (field; lra). lra.
Qed.
(* Taylor's formula with remainder *)
Lemma exp_taylor x N : Rabs x <= 1 / 2 -> Rabs (exp x - sum_f_R0 (term x) N) <= 2 * Rabs (term x (S N)).
Proof.
  intros Hx. apply (limit_bound _ _ _ _ N (exp_cv x)). intros n Hn.
  destruct (tail_bound x N Hx (n - N)) as (H & _). replace (N + (n - N))%nat with n in H by lia.
  eapply Rle_trans; [exact H|].
  assert (0 <= Rabs (term x (S N)) / 2 ^ (n - N)); [|lra].
  apply Rmult_le_pos; [apply Rabs_pos|]. left. apply Rinv_0_lt_compat, pow_lt. lra.
Qed.

(* the polynomial of fixedpoint.h *)
Definition poly4 (X : R) : R := 1 + X + X ^ 2 / 2 + X ^ 3 / 6 + X ^ 4 / 24.
Lemma exp_poly6 X : Rabs X <= 1 / 2 ->
  Rabs (exp X - poly4 X - (X ^ 5 / 120 + X ^ 6 / 720)) <= 2 * (Rabs (X ^ 7) / 5040).
Proof.
  intros HX. pose proof (exp_taylor X 6 HX) as H. cbn [sum_f_R0] in H.
  assert (T0 : term X 0 = 1) by (unfold term; cbn; field).
  assert (T1 : term X 1 = X) by (rewrite term_next, T0; cbn [INR]; field).
  assert (T2 : term X 2 = X ^ 2 / 2) by (rewrite term_next, T1; cbn [INR]; field).
  assert (T3 : term X 3 = X ^ 3 / 6) by (rewrite term_next, T2; cbn [INR]; field).
  assert (T4 : term X 4 = X ^ 4 / 24) by (rewrite term_next, T3; cbn [INR]; field).
  assert (T5 : term X 5 = X ^ 5 / 120) by (rewrite term_next, T4; cbn [INR]; field).
  assert (T6 : term X 6 = X ^ 6 / 720) by (rewrite term_next, T5; cbn [INR]; field).
  assert (T7 : term X 7 = X ^ 7 / 5040) by (rewrite term_next, T6; cbn [INR]; field).
  rewrite T0, T1, T2, T3, T4, T5, T6, T7 in H.
  replace (Rabs (X ^ 7 / 5040)) with (Rabs (X ^ 7) / 5040) in H
    by (unfold Rdiv; rewrite (Rabs_mult (X ^ 7)), (Rabs_right (/ 5040)) by lra; reflexivity).
  unfold poly4. match goal with |- Rabs ?x <= _ => match type of H with Rabs ?y <= _ => replace x with y by (unfold Rdiv; ring) end end. exact H.
Qed.
Lemma exp_poly4 X : Rabs X <= 1 / 8 -> Rabs (exp X - poly4 X) <= 260 / 1000000000.
Proof.
  intros HX. pose proof (exp_poly6 X ltac:(lra)) as H.
  assert (A : forall n, Rabs (X ^ n) <= (1 / 8) ^ n).
  { intros n. rewrite <- RPow_abs. apply pow_incr. split; [apply Rabs_pos|exact HX]. }
  pose proof (A 5%nat) as A5. pose proof (A 6%nat) as A6. pose proof (A 7%nat) as A7. 
  replace ((1 / 8) ^ 5) with (1 / 32768) in A5 by field. replace ((1 / 8) ^ 6) with (1 / 262144) in A6 by field.
  replace ((1 / 8) ^ 7) with (1 / 2097152) in A7 by field.
  revert H A5 A6 A7. generalize (exp X) (poly4 X) (X ^ 5) (X ^ 6) (X ^ 7). intros e p x5 x6 x7.
  unfold Rabs. repeat destruct (Rcase_abs _); lra.
Qed.
(* negative arguments: the sixth power makes the error smaller *)
Lemma exp_poly4_neg X : - (1 / 8) <= X <= 0 -> Rabs (exp X - poly4 X) <= 25432 / 100000000000.
Proof.
  intros HX. assert (HA : Rabs X <= 1 / 8) by (unfold Rabs; destruct (Rcase_abs X); lra).
  pose proof (exp_poly6 X ltac:(lra)) as H.
  set (t := - X). assert (Ht : 0 <= t <= 1 / 8) by (unfold t; lra). assert (EX : X = - t) by (unfold t; lra).
  assert (E5 : X ^ 5 = - t ^ 5) by (rewrite EX; ring). assert (E6 : X ^ 6 = t ^ 6) by (rewrite EX; ring).
  assert (E7 : X ^ 7 = - t ^ 7) by (rewrite EX; ring).
  assert (P5 : 0 <= t ^ 5 <= 1 / 32768).
  { split; [apply pow_le; lra|]. replace (1 / 32768) with ((1 / 8) ^ 5) by field. apply pow_incr. lra. }
  assert (P6 : t ^ 6 = t * t ^ 5) by ring. assert (P7 : t ^ 7 = t * t ^ 6) by ring.
  assert (Q6 : 0 <= t ^ 6 <= 1 / 8 * t ^ 5).
  { rewrite P6. split; [apply Rmult_le_pos; lra|apply Rmult_le_compat_r; lra]. }
  assert (Q7 : 0 <= t ^ 7 <= 1 / 8 * t ^ 6).
  { rewrite P7. split; [apply Rmult_le_pos; lra|apply Rmult_le_compat_r; lra]. }
  rewrite E5, E6, E7, Rabs_Ropp, (Rabs_right (t ^ 7)) in H by lra.
  revert H P5 Q6 Q7. clear. generalize (exp X) (poly4 X) (t ^ 5) (t ^ 6) (t ^ 7). intros e p x5 x6 x7.
  unfold Rabs. repeat destruct (Rcase_abs _); lra.
Qed.

(* exp (-1/8) and the constants derived from it by squaring *)
Lemma term_m8_0 : term (- (1 / 8)) 0 = 1.
Proof. unfold term. cbn. field. Qed.
Lemma term_m8_1 : term (- (1 / 8)) 1 = - (1 / 8).
Proof. rewrite term_next, term_m8_0. cbn [INR]. lra. Qed.
Lemma term_m8_2 : term (- (1 / 8)) 2 = 1 / 128.
Proof. rewrite term_next, term_m8_1. cbn [INR]. lra. Qed.
Lemma term_m8_3 : term (- (1 / 8)) 3 = - (1 / 3072).
Proof. rewrite term_next, term_m8_2. cbn [INR]. lra. Qed.
Lemma term_m8_4 : term (- (1 / 8)) 4 = 1 / 98304.
Proof. rewrite term_next, term_m8_3. cbn [INR]. lra. Qed.
Lemma term_m8_5 : term (- (1 / 8)) 5 = - (1 / 3932160).
Proof. rewrite term_next, term_m8_4. cbn [INR]. lra. Qed.
Lemma term_m8_6 : term (- (1 / 8)) 6 = 1 / 188743680.
Proof. rewrite term_next, term_m8_5. cbn [INR]. lra. Qed.
Lemma term_m8_7 : term (- (1 / 8)) 7 = - (1 / 10569646080).
Proof. rewrite term_next, term_m8_6. cbn [INR]. lra. Qed.
Lemma term_m8_8 : term (- (1 / 8)) 8 = 1 / 676457349120.
Proof. rewrite term_next, term_m8_7. cbn [INR]. lra. Qed.
Lemma term_m8_9 : term (- (1 / 8)) 9 = - (1 / 48704929136640).
Proof. rewrite term_next, term_m8_8. cbn [INR]. lra. Qed.
Lemma term_m8_10 : term (- (1 / 8)) 10 = 1 / 3896394330931200.
Proof. rewrite term_next, term_m8_9. cbn [INR]. lra. Qed.
Lemma term_m8_11 : term (- (1 / 8)) 11 = - (1 / 342882701121945600).
Proof. rewrite term_next, term_m8_10. cbn [INR]. lra. Qed.
Lemma exp_m8 : 8824969025845953 / 10000000000000000 <= exp (- (1 / 8)) <= 8824969025845956 / 10000000000000000.
Proof.
  pose proof (exp_taylor (- (1 / 8)) 10) as H. rewrite Rabs_Ropp, (Rabs_right (1 / 8)) in H by lra. specialize (H ltac:(lra)).
  cbn [sum_f_R0] in H. rewrite term_m8_0, term_m8_1, term_m8_2, term_m8_3, term_m8_4, term_m8_5, term_m8_6, term_m8_7, term_m8_8, term_m8_9, term_m8_10, term_m8_11 in H.
  revert H. generalize (exp (- (1 / 8))). intros e H. unfold Rabs in H. destruct (Rcase_abs _) in H; destruct (Rcase_abs _) in H; lra.
Qed.
Lemma square_bounds lo hi lo' hi' y : 0 <= lo -> lo <= y <= hi -> lo' <= lo * lo -> hi * hi <= hi' -> lo' <= y * y <= hi'.
Proof.
  intros H0 (H1 & H2) H3 H4. assert (lo * lo <= y * y) by (apply Rmult_le_compat; lra).
  assert (y * y <= hi * hi) by (apply Rmult_le_compat; lra). lra.
Qed.
Lemma exp_m4 : 7788007830714046 / 10000000000000000 <= exp (- (1 / 4)) <= 7788007830714053 / 10000000000000000.
Proof.
  replace (- (1 / 4)) with (- (1 / 8) + - (1 / 8)) by lra. rewrite exp_plus.
  eapply square_bounds; [|exact exp_m8| |]; lra.
Qed.
Lemma exp_m2 : 606530659712633 / 1000000000000000 <= exp (- (1 / 2)) <= 606530659712635 / 1000000000000000.
Proof.
  replace (- (1 / 2)) with (- (1 / 4) + - (1 / 4)) by lra. rewrite exp_plus.
  eapply square_bounds; [|exact exp_m4| |]; lra.
Qed.
Lemma exp_m1 : 367879441171441 / 1000000000000000 <= exp (- (1)) <= 367879441171445 / 1000000000000000.
Proof.
  replace (- (1)) with (- (1 / 2) + - (1 / 2)) by lra. rewrite exp_plus.
  eapply square_bounds; [|exact exp_m2| |]; lra.
Qed.
Lemma exp_2 : 135335283236611 / 1000000000000000 <= exp (- (2)) <= 135335283236615 / 1000000000000000.
Proof.
  replace (- (2)) with (- (1) + - (1)) by lra. rewrite exp_plus.
  eapply square_bounds; [|exact exp_m1| |]; lra.
Qed.
Lemma exp_4 : 18315638888733 / 1000000000000000 <= exp (- (4)) <= 18315638888735 / 1000000000000000.
Proof.
  replace (- (4)) with (- (2) + - (2)) by lra. rewrite exp_plus.
  eapply square_bounds; [|exact exp_2| |]; lra.
Qed.
Lemma exp_8 : 3354626279024 / 10000000000000000 <= exp (- (8)) <= 3354626279026 / 10000000000000000.
Proof.
  replace (- (8)) with (- (4) + - (4)) by lra. rewrite exp_plus.
  eapply square_bounds; [|exact exp_4| |]; lra.
Qed.
Lemma exp_16 : 11253517471 / 100000000000000000 <= exp (- (16)) <= 11253517472 / 100000000000000000.
Proof.
  replace (- (16)) with (- (8) + - (8)) by lra. rewrite exp_plus.
  eapply square_bounds; [|exact exp_8| |]; lra.
Qed.

(* relative to the exponential *)
Lemma exp_poly4_rel X : Rabs X <= 1 / 8 -> Rabs (exp X - poly4 X) <= 289 / 1000000000 * exp X.
Proof.
  intros HX. pose proof (exp_poly4 X HX) as H. pose proof exp_m8 as H8. pose proof exp_0 as E0.
  assert (HX' : - (1 / 8) <= X <= 1 / 8) by (revert HX; unfold Rabs; destruct (Rcase_abs X); lra).
  destruct (Rle_or_lt 0 X) as [Hp|Hn].
  - assert (1 <= exp X) by (rewrite <- E0; destruct Hp as [Hp|<-]; [left; apply exp_increasing; exact Hp|right; reflexivity]). lra.
  - pose proof (exp_poly4_neg X ltac:(lra)).
    assert (exp (- (1 / 8)) <= exp X) by (destruct (proj1 HX') as [Hl|<-]; [left; apply exp_increasing; exact Hl|right; reflexivity]). lra.
Qed.
