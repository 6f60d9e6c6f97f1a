(* QuantProofs.v: the integer multiplier and shift of the quantization example. *)
From Coq Require Import SpecFloat QArith Qabs Qpower Lqa.
From Verif Require Import Base BaseLemmas EightBitModel QuantModel FloatSpec FloatProofs FloatProofs2 FloatProofs3 QuantSpec.
#[local] Open Scope Q_scope.

Lemma p24 : (1 < 24)%Z. Proof. lia. Qed.
Lemma e128 : (24 < 128)%Z. Proof. lia. Qed.
Lemma p53 : (1 < 53)%Z. Proof. lia. Qed.
Lemma e1024 : (53 < 1024)%Z. Proof. lia. Qed.

Lemma fmul_ok x y : is_float x -> is_float y -> rounded 24 128 (valQ x * valQ y) (fmul x y).
Proof. intros [A B] [C D]. eexists. apply (mul_rounds _ _ p24 e128); assumption. Qed.
Lemma fadd_ok x y : is_float x -> is_float y -> rounded 24 128 (valQ x + valQ y) (fadd x y).
Proof. intros [A B] [C D]. apply (add_rounds _ _ p24 e128); assumption. Qed.
Lemma fsub_ok x y : is_float x -> is_float y -> rounded 24 128 (valQ x - valQ y) (fsub x y).
Proof. intros [A B] [C D]. apply (sub_rounds _ _ p24 e128); assumption. Qed.
Lemma fdiv_ok x y : is_float x -> is_float y -> ~ valQ y == 0 -> rounded 24 128 (valQ x / valQ y) (fdiv x y).
Proof. intros [A B] [C D] N. eexists. apply (div_rounds _ _ p24 e128); assumption. Qed.
Lemma dsub_ok x y : is_double x -> is_double y -> rounded 53 1024 (valQ x - valQ y) (dsub x y).
Proof. intros [A B] [C D]. apply (sub_rounds _ _ p53 e1024); assumption. Qed.
Lemma ddiv_ok x y : is_double x -> is_double y -> ~ valQ y == 0 -> rounded 53 1024 (valQ x / valQ y) (ddiv x y).
Proof. intros [A B] [C D] N. eexists. apply (div_rounds _ _ p53 e1024); assumption. Qed.
Lemma float_ltb x y : is_float x -> is_float y -> (SFltb x y = true <-> valQ x < valQ y).
Proof. intros [A B] [C D]. apply (ltb_ok 24 128 p24); assumption. Qed.
Lemma double_ltb x y : is_double x -> is_double y -> (SFltb x y = true <-> valQ x < valQ y).
Proof. intros [A B] [C D]. apply (ltb_ok 53 1024 p53); assumption. Qed.
Lemma float_ltb_false x y : is_float x -> is_float y -> (SFltb x y = false <-> valQ y <= valQ x).
Proof.
  intros A B. pose proof (float_ltb x y A B) as H. destruct (SFltb x y); split; intros; try discriminate; try reflexivity.
  - destruct H as [H _]. specialize (H eq_refl). lra.
  - destruct H as [_ H]. apply Qnot_lt_le. intros L. specialize (H L). discriminate.
Qed.
Lemma double_ltb_false x y : is_double x -> is_double y -> (SFltb x y = false <-> valQ y <= valQ x).
Proof.
  intros A B. pose proof (double_ltb x y A B) as H. destruct (SFltb x y); split; intros; try discriminate; try reflexivity.
  - destruct H as [H _]. specialize (H eq_refl). lra.
  - destruct H as [_ H]. apply Qnot_lt_le. intros L. specialize (H L). discriminate.
Qed.

Lemma of_Z_ok n : rounded 24 128 (inject_Z n) (float_of_Z n).
Proof.
  eexists. eapply rounds_to_wd; [| apply (normalize_rounds _ _ p24 e128)].
  change (pow2 0) with 1. ring.
Qed.
Lemma Z_in_format n : (Z.abs n < 2 ^ 24)%Z -> in_format 24 128 (inject_Z n).
Proof. intros H. exists n, 0%Z. split; [lia|]. change (pow2 0) with 1. ring. Qed.
Lemma of_Z_exact n : (Z.abs n < 2 ^ 24)%Z -> is_float (float_of_Z n) /\ valQ (float_of_Z n) == inject_Z n.
Proof.
  intros H. destruct (rounded_exact _ _ p24 _ _ (of_Z_ok n) (Z_in_format n H)) as (A & B & C).
  split; [split|]; assumption.
Qed.

(* rounding to an integer *)
Lemma rounds_away_wd x y n : x == y -> rounds_away x n -> rounds_away y n.
Proof. intros E [H1 H2]. split; [rewrite <- E; exact H1 | rewrite <- E; exact H2]. Qed.
Lemma round_to_int_ok f : is_fin f = true -> exists n, round_to_int f = Some n /\ rounds_away (valQ f) n.
Proof.
  destruct f as [s|s| |s m e]; try discriminate; intros _; cbn [round_to_int].
  - exists 0%Z. split; [reflexivity|]. split; [discriminate|]. intros F. discriminate.
  - eexists. split; [reflexivity|].
    assert (Sg : forall n, rounds_away (inject_Z (Zpos m) * pow2 e) n ->
      rounds_away (valQ (S754_finite s m e)) (if s then - n else n)).
    { intros n [H1 H2]. destruct s; [| exact (conj H1 H2)].
      assert (E : valQ (S754_finite true m e) == - (inject_Z (Zpos m) * pow2 e)) by (rewrite valQ_finite; unfold sgn; ring).
      assert (E2 : inject_Z (- n) - - (inject_Z (Zpos m) * pow2 e) == - (inject_Z n - inject_Z (Zpos m) * pow2 e))
        by (rewrite inject_Z_opp; ring).
      split.
      - rewrite E, E2, Qabs_opp. exact H1.
      - rewrite E, E2, !inject_Z_opp, !Qabs_opp. exact H2. }
    apply Sg. destruct (Z.leb_spec 0 e) as [H | H].
    + set (n := (Zpos m * 2 ^ e)%Z). apply (rounds_away_wd (inject_Z n)); [unfold n; rewrite pow2_Z, inject_Z_mult by lia; reflexivity|].
      assert (E : inject_Z n - inject_Z n == 0) by ring.
      split; [rewrite E; discriminate | rewrite E; discriminate].
    + set (d := (2 ^ (- e))%Z). assert (Hd : (0 < d)%Z) by (apply Z.pow_pos_nonneg; lia).
      assert (Ed : pow2 e * inject_Z d == 1).
      { unfold d. rewrite <- pow2_Z by lia. rewrite <- pow2_add. replace (e + - e)%Z with 0%Z by lia. reflexivity. }
      set (n := ((2 * Z.pos m + d) / (2 * d))%Z).
      assert (B : (2 * n * d <= 2 * Zpos m + d < 2 * n * d + 2 * d)%Z).
      { pose proof (Z.div_mod (2 * Zpos m + d) (2 * d) ltac:(lia)) as D.
        pose proof (Z.mod_pos_bound (2 * Zpos m + d) (2 * d) ltac:(lia)) as M. fold n in D. lia. }
      assert (Pd : 0 < inject_Z d) by (apply (proj1 (inj_lt 0 d)); exact Hd).
      assert (Pm : inject_Z (Zpos m) == inject_Z (Zpos m) * pow2 e * inject_Z d)
        by (rewrite <- Qmult_assoc, Ed; ring).
      destruct B as [B1 B2]. apply inj_le in B1. apply inj_lt in B2.
      injz B1; injz B2. change (inject_Z 2) with 2 in *.
      set (X := inject_Z (Zpos m) * pow2 e) in *. set (D := inject_Z d) in *. set (N := inject_Z n) in *.
      set (P := inject_Z (Zpos m)) in *. rewrite Pm in B1, B2.
      assert (L1 : N - X <= 1 # 2) by nra.
      assert (L2 : X - N < 1 # 2) by nra.
      assert (X0 : 0 <= X). { unfold X, P. pose proof (pow2_pos e). pose proof (inj_pos_pos m). nra. }
      unfold rounds_away. fold N. split; [apply Qabs_le; lra|].
      intros F. assert (E : N - X == 1 # 2).
      { revert F. apply (Qabs_case (N - X) (fun z => z == 1 # 2 -> N - X == 1 # 2)); intros; lra. }
      rewrite (Qabs_pos X) by exact X0. rewrite (Qabs_pos N) by lra. lra.
Qed.
Lemma rounds_away_exact x n k : rounds_away x n -> x == inject_Z k -> n = k.
Proof.
  intros [H _] E. rewrite E in H. apply Qabs_le in H. destruct H as [H1 H2].
  assert (A : inject_Z (n - k) < inject_Z 1) by (unfold Zminus; rewrite inject_Z_plus, inject_Z_opp; change (inject_Z 1) with 1; lra).
  assert (B : inject_Z (-1) < inject_Z (n - k)) by (unfold Zminus; rewrite inject_Z_plus, inject_Z_opp; change (inject_Z (-1)) with (-1#1); lra).
  apply inj_lt in A, B. lia.
Qed.

(* doubling a float below one half is exact *)
Lemma is_float_two : is_float (float_of_Z 2) /\ valQ (float_of_Z 2) == 2. Proof. split; [split|]; reflexivity. Qed.
Lemma scale_in_format f k : is_float f -> (0 <= k <= 31)%Z -> Qabs (valQ f) < 1 -> in_format 24 128 (valQ f * pow2 k).
Proof.
  intros [V Fi] Hk L. destruct f as [s|s| |s m e]; try discriminate Fi.
  - apply (in_format_wd _ _ 0); [cbn [valQ]; ring | exact (zero_in_format _ _ p24 e128)].
  - destruct (valid_inv 24 128 _ _ _ V) as (_ & He & Hm & _).
    exists (if s then Zneg m else Zpos m)%Z, (e + k)%Z. split.
    + assert ((e < 0)%Z).
      { apply Z.nle_gt. intros G. revert L. apply Qle_not_lt. rewrite valQ_finite.
        assert (1 <= inject_Z (Zpos m) * pow2 e).
        { assert (inject_Z 1 <= inject_Z (Zpos m)) as A by (apply (proj1 (inj_le _ _)); lia).
          pose proof (pow2_le 0 e G) as B. change (pow2 0) with 1 in B. change (inject_Z 1) with 1 in A. nra. }
        unfold sgn. destruct s.
        - rewrite Qabs_neg; lra.
        - rewrite Qabs_pos; lra. }
      unfold SpecFloat.emin in *. destruct s; cbn [Z.abs]; lia.
    + rewrite pow2_add. cbn [valQ]. ring.
Qed.
Lemma double_exact f : is_float f -> Qabs (valQ f) < 1 ->
  is_float (fmul f (float_of_Z 2)) /\ valQ (fmul f (float_of_Z 2)) == 2 * valQ f.
Proof.
  intros H L. destruct is_float_two as [F2 E2].
  assert (I : in_format 24 128 (valQ f * valQ (float_of_Z 2))).
  { apply (in_format_wd _ _ (valQ f * pow2 1)); [rewrite E2; reflexivity | apply scale_in_format; [exact H | lia | exact L]]. }
  destruct (rounded_exact _ _ p24 _ _ (fmul_ok f _ H F2) I) as (A & B & C).
  split; [split; assumption|]. rewrite C, E2. ring.
Qed.
Definition fhalf := S754_finite false 8388608 (-24).
Lemma is_float_half : is_float fhalf /\ valQ fhalf == 1 # 2. Proof. split; [split|]; reflexivity. Qed.

(* the loop *)
Lemma loop_ok f0 : is_float f0 -> forall fuel f s, is_float f -> (0 <= s)%Z -> valQ f == valQ f0 * pow2 s -> 0 < valQ f < 1 ->
  pow2 (- 1 - Z.of_nat fuel) <= valQ f ->
  exists g k, double_until_half fuel f s = Some (g, k) /\ (s <= k <= s + Z.of_nat fuel)%Z /\ is_float g /\
    valQ g == valQ f0 * pow2 k /\ 1 # 2 <= valQ g /\ valQ g < 1.
Proof.
  intros H0. induction fuel as [|fuel IH]; intros f s Hf Hs E [P L] G; cbn [double_until_half]; fold fhalf;
    destruct is_float_half as [Fh Eh]; destruct (SFltb f fhalf) eqn:Lt.
  - exfalso. apply (float_ltb _ _ Hf Fh) in Lt. rewrite Eh in Lt. change (pow2 (- 1 - Z.of_nat 0)) with (1 # 2) in G. lra.
  - apply (float_ltb_false _ _ Hf Fh) in Lt. rewrite Eh in Lt. exists f, s. split; [reflexivity|]. split; [lia|]. auto.
  - apply (float_ltb _ _ Hf Fh) in Lt. rewrite Eh in Lt.
    destruct (double_exact f Hf) as [H2 E2]; [rewrite Qabs_pos; lra|].
    destruct (IH (fmul f (float_of_Z 2)) (s + 1)%Z H2) as (g & k & A & B & C & D); [lia | | | |].
    + rewrite E2, E, pow2_add. change (pow2 1) with 2. ring.
    + rewrite E2. lra.
    + rewrite E2. replace (- 1 - Z.of_nat fuel)%Z with (1 + (- 1 - Z.of_nat (S fuel)))%Z by lia. rewrite pow2_add.
      change (pow2 1) with 2. lra.
    + exists g, k. split; [exact A|]. split; [lia|]. auto.
  - apply (float_ltb_false _ _ Hf Fh) in Lt. rewrite Eh in Lt. exists f, s. split; [reflexivity|]. split; [lia|]. auto.
Qed.
Lemma float_min f : is_float f -> 0 < valQ f -> pow2 (- 149) <= valQ f.
Proof.
  intros [V Fi] P. destruct f as [s|s| |s m e]; try discriminate Fi; try (cbn [valQ] in P; lra).
  destruct (valid_inv 24 128 _ _ _ V) as (_ & He & _ & _). unfold SpecFloat.emin in He.
  destruct s; [exfalso; rewrite valQ_finite in P; unfold sgn in P; pose proof (inj_pos_pos m); pose proof (pow2_pos e); nra|].
  rewrite valQ_finite. unfold sgn. assert (inject_Z 1 <= inject_Z (Zpos m)) as A by (apply (proj1 (inj_le _ _)); lia).
  change (inject_Z 1) with 1 in A. pose proof (pow2_le (-149) e ltac:(lia)). pose proof (pow2_pos e). nra.
Qed.
Lemma f31_ok : is_float (float_of_Z (2 ^ 31)) /\ valQ (float_of_Z (2 ^ 31)) == pow2 31.
Proof. split; [split|]; reflexivity. Qed.

Theorem quantize_multiplier asserts fuel f :
  is_float f -> 0 < valQ f < 1 -> (148 <= Z.of_nat fuel)%Z ->
  exists q s, QuantizeMultiplierSmallerThanOne asserts fuel f = Some (q, s) /\
    (2 ^ 30 <= q < 2 ^ 31)%Z /\ (0 <= s <= 148)%Z /\ valQ f == inject_Z q * pow2 (- 31 - s).
Proof.
  intros Hf [P L] Hfuel.
  destruct (of_Z_exact 0 ltac:(lia)) as [F0 E0]. destruct (of_Z_exact 1 ltac:(lia)) as [F1 E1].
  destruct (loop_ok f Hf fuel f 0%Z Hf ltac:(lia)) as (g & s & EL & Hs & Hg & Eg & G1 & G2).
  { change (pow2 0) with 1. ring. } { split; assumption. }
  { pose proof (float_min f Hf P). pose proof (pow2_le (- 1 - Z.of_nat fuel) (-149) ltac:(lia)). lra. }
  destruct f31_ok as [F31 E31].
  assert (I : in_format 24 128 (valQ g * valQ (float_of_Z (2 ^ 31)))).
  { apply (in_format_wd _ _ (valQ g * pow2 31)); [rewrite E31; reflexivity |].
    apply scale_in_format; [exact Hg | lia | rewrite Qabs_pos; lra]. }
  destruct (rounded_exact _ _ p24 _ _ (fmul_ok g _ Hg F31) I) as (A & B & C). rewrite E31 in C.
  destruct (round_to_int_ok _ A) as (n & En & Rn).
  (* the product is an integer *)
  assert (Hint : exists k, valQ g * pow2 31 == inject_Z k /\ (2 ^ 30 <= k < 2 ^ 31)%Z).
  { destruct Hg as [V Fi]. destruct g as [sg|sg| |sg m e]; try discriminate Fi; try (cbn [valQ] in G1; lra).
    destruct (valid_inv 24 128 _ _ _ V) as (_ & He & Hm & _).
    destruct sg; [exfalso; rewrite valQ_finite in G1; unfold sgn in G1; pose proof (inj_pos_pos m); pose proof (pow2_pos e); nra|].
    assert ((-25 < e)%Z).
    { apply Z.nle_gt. intros F. revert G1. apply Qlt_not_le. rewrite valQ_finite. unfold sgn.
      apply inj_lt in Hm. change (inject_Z (2 ^ 24)) with (pow2 24) in Hm.
      pose proof (pow2_le e (-25) F) as Q. pose proof (pow2_pos e). pose proof (inj_pos_pos m).
      assert (pow2 24 * pow2 (-25) == 1 # 2) by reflexivity. pose proof (pow2_pos (-25)). nra. }
    assert (Ek : valQ (S754_finite false m e) * pow2 31 == inject_Z (Zpos m * 2 ^ (e + 31))).
    { rewrite inject_Z_mult, <- pow2_Z by lia. rewrite pow2_add. cbn [valQ]. ring. }
    exists (Zpos m * 2 ^ (e + 31))%Z. split; [exact Ek|].
    rewrite inj_le, inj_lt, <- Ek. assert (E30 : inject_Z (2 ^ 30) == (1 # 2) * pow2 31) by reflexivity. rewrite E30.
    change (inject_Z (2 ^ 31)) with (pow2 31). pose proof (pow2_pos 31). split; nra. }
  destruct Hint as (k & Ek & Hk).
  assert (n = k) by (apply (rounds_away_exact _ _ _ Rn); rewrite C; exact Ek). subst n.
  exists k, s.
  assert (Hv : valQ f == inject_Z k * pow2 (- 31 - s)).
  { rewrite <- Ek, Eg. replace (- 31 - s)%Z with (- s + - 31)%Z by lia. rewrite pow2_add.
    assert (T1 : pow2 s * pow2 (- s) == 1) by (rewrite <- pow2_add; replace (s + - s)%Z with 0%Z by lia; reflexivity).
    assert (T2 : pow2 31 * pow2 (-31) == 1) by reflexivity.
    transitivity (valQ f * (pow2 s * pow2 (- s)) * (pow2 31 * pow2 (-31))); [rewrite T1, T2; ring | ring]. }
  assert (Hs' : (0 <= s <= 148)%Z).
  { split; [lia|]. apply Z.nlt_ge. intros F. pose proof (float_min f Hf P) as M. rewrite Hv in M. revert M. apply Qlt_not_le.
    destruct Hk as [_ K]. apply inj_lt in K. change (inject_Z (2 ^ 31)) with (pow2 31) in K.
    pose proof (pow2_le (- 31 - s) (- 180) ltac:(lia)). pose proof (pow2_pos (- 31 - s)).
    assert (pow2 31 * pow2 (-180) == pow2 (-149)) by reflexivity. pose proof (pow2_pos 31). nra. }
  split; [| auto].
  unfold QuantizeMultiplierSmallerThanOne.
  rewrite (proj2 (float_ltb _ _ F0 Hf)) by (rewrite E0; exact P).
  rewrite (proj2 (float_ltb _ _ Hf F1)) by (rewrite E1; exact L).
  rewrite !orb_true_r. rewrite EL. cbn [bind]. rewrite En. cbn [bind]. unfold to_int64.
  replace ((- 2 ^ 63 <=? k)%Z) with true by lia. replace ((k <=? 2 ^ 63 - 1)%Z) with true by lia. cbn [andb bind].
  replace ((k <=? 2 ^ 31)%Z) with true by lia. rewrite orb_true_r.
  replace ((k =? 2 ^ 31)%Z) with false by lia.
  replace ((0 <=? s)%Z) with true by lia. replace ((k <=? 2 ^ 31 - 1)%Z) with true by lia. rewrite !orb_true_r.
  rewrite wrapS_small by (unfold int_min, int_max; lia). reflexivity.
Qed.
