(* QuantProofs2.v: choosing quantization parameters, quantizing and dequantizing. *)
From Coq Require Import SpecFloat QArith Qabs Qpower Qminmax Lqa.
From Verif Require Import Base BaseLemmas EightBitModel QuantModel FloatSpec FloatProofs FloatProofs2 FloatProofs3 QuantSpec QuantProofs.
#[local] Open Scope Q_scope.

Notation thr24 := (overflow_threshold 24 128).
Notation thr53 := (overflow_threshold 53 1024).
Lemma thr24_big : pow2 127 < thr24. Proof. reflexivity. Qed.
Lemma thr53_big : pow2 1023 < thr53. Proof. reflexivity. Qed.
Lemma valid_rounds s x f : rounds_to 24 128 s x f -> valid_binary 24 128 f = true.
Proof.
  intros [H1 H2]. destruct (Qlt_le_dec (Qabs x) thr24) as [L | L].
  - destruct (H1 L) as (_ & V & _). exact V.
  - rewrite (H2 L). reflexivity.
Qed.
Lemma rounded_float x f : rounded 24 128 x f -> Qabs x < thr24 -> is_float f.
Proof. intros H L. destruct (rounded_fin 24 128 x f H L) as (A & B & _). split; assumption. Qed.
Lemma float_valid f : is_float f -> valid_binary 24 128 f = true. Proof. intros [V _]; exact V. Qed.
Lemma float_format f : is_float f -> in_format 24 128 (valQ f).
Proof. intros [V _]. exact (valid_in_format _ _ p24 e128 f V). Qed.
Lemma float_lt_thr f : is_float f -> Qabs (valQ f) < thr24.
Proof. intros H. apply (in_format_lt_thr 24 128 p24), float_format, H. Qed.

(* relative error where nothing underflows *)
Lemma float_rel x f : rounded 24 128 x f -> Qabs x < thr24 -> pow2 (-126) <= Qabs x ->
  Qabs (valQ f - x) <= (1 # 16777216) * Qabs x.
Proof.
  intros H L G. assert (E : pow2 (-24) == 1 # 16777216) by reflexivity.
  destruct (rounded_err _ _ p24 e128 x f H L) as [A | A]; [rewrite <- E; exact A|].
  change (SpecFloat.emin 24 128 - 1)%Z with (-150)%Z in A.
  assert (pow2 (-150) == (1 # 16777216) * pow2 (-126)) by reflexivity. lra.
Qed.
Lemma float_abs x f : rounded 24 128 x f -> Qabs x < thr24 ->
  Qabs (valQ f - x) <= (1 # 16777216) * Qabs x + pow2 (-150).
Proof.
  intros H L. assert (E : pow2 (-24) == 1 # 16777216) by reflexivity. rewrite <- E.
  exact (rounded_err_sum _ _ p24 e128 x f H L).
Qed.

(* widening and narrowing *)
Lemma format_widen x : in_format 24 128 x -> in_format 53 1024 x.
Proof. intros (m & e & [H1 H2] & E). exists m, e. split; [lia | exact E]. Qed.
Lemma to_double_ok f : is_float f -> is_double (to_double f) /\ valQ (to_double f) == valQ f.
Proof.
  intros H. pose proof (format_widen _ (float_format f H)) as I. destruct H as [V Fi].
  destruct f as [s|s| |s m e]; try discriminate Fi; [split; [split|]; reflexivity|].
  assert (R : rounded 53 1024 (valQ (S754_finite s m e)) (to_double (S754_finite s m e))).
  { eexists. eapply rounds_to_wd; [| apply (round_rounds _ _ p53 e1024)]. rewrite valQ_finite. reflexivity. }
  destruct (rounded_exact _ _ p53 _ _ R I) as (A & B & C). split; [split; assumption | exact C].
Qed.
Lemma to_float_ok f : is_float f -> is_float (to_float (to_double f)) /\ valQ (to_float (to_double f)) == valQ f.
Proof.
  intros H. pose proof (float_format f H) as I. destruct (to_double_ok f H) as [[V2 F2] E2].
  set (g := to_double f) in *.
  destruct g as [s|s| |s m e]; try discriminate F2; [split; [split; reflexivity | exact E2]|].
  assert (R : rounded 24 128 (valQ (S754_finite s m e)) (to_float (S754_finite s m e))).
  { eexists. eapply rounds_to_wd; [| apply (round_rounds _ _ p24 e128)]. rewrite valQ_finite. reflexivity. }
  destruct (rounded_exact _ _ p24 _ _ R) as (A & B & C); [apply (in_format_wd _ _ (valQ f)); [symmetry; exact E2 | exact I]|].
  split; [split; assumption | rewrite C; exact E2].
Qed.

(* minimum and maximum *)
Lemma fmin_ok a b : is_float a -> is_float b -> is_float (fmin a b) /\ valQ (fmin a b) == Qmin (valQ a) (valQ b).
Proof.
  intros A B. unfold fmin. destruct (SFltb b a) eqn:E.
  - apply (float_ltb _ _ B A) in E. split; [exact B|]. rewrite Q.min_r; [reflexivity | lra].
  - apply (float_ltb_false _ _ B A) in E. split; [exact A|]. rewrite Q.min_l; [reflexivity | lra].
Qed.
Lemma fmax_ok a b : is_float a -> is_float b -> is_float (fmax a b) /\ valQ (fmax a b) == Qmax (valQ a) (valQ b).
Proof.
  intros A B. unfold fmax. destruct (SFltb a b) eqn:E.
  - apply (float_ltb _ _ A B) in E. split; [exact B|]. rewrite Q.max_r; [reflexivity | lra].
  - apply (float_ltb_false _ _ A B) in E. split; [exact A|]. rewrite Q.max_l; [reflexivity | lra].
Qed.
Lemma fzero_ok : is_float (float_of_Z 0) /\ valQ (float_of_Z 0) == 0. Proof. split; [split|]; reflexivity. Qed.
Lemma f255_ok : is_float (float_of_Z 255) /\ valQ (float_of_Z 255) == 255. Proof. split; [split|]; reflexivity. Qed.
Lemma f255_sub : fsub (float_of_Z 255) (float_of_Z 0) = float_of_Z 255. Proof. reflexivity. Qed.

Lemma rounds_away_range x n a b : rounds_away x n -> inject_Z a <= x -> x <= inject_Z b -> (a <= n <= b)%Z.
Proof.
  intros [H _] A B. apply Qabs_le in H. destruct H as [H1 H2].
  split; apply Z.lt_succ_r; apply (proj2 (inj_lt _ _)); unfold Z.succ; rewrite inject_Z_plus; change (inject_Z 1) with 1; lra.
Qed.

(* the second half of ChooseQuantizationParams: the zero point *)
Definition nudge (initial_zero_point : float) : option Z :=
  if SFltb initial_zero_point (to_double (float_of_Z 0)) then Some 0%Z
  else if SFltb (to_double (float_of_Z 255)) initial_zero_point then Some 255%Z
  else let* r := round_to_int initial_zero_point in to_uint8 r.
Lemma choose_eq min max : ChooseQuantizationParams min max =
  let mn := fmin min (float_of_Z 0) in
  let scale := to_double (fdiv (fsub (fmax max (float_of_Z 0)) mn) (float_of_Z 255)) in
  let* z := nudge (dsub (to_double (float_of_Z 0)) (ddiv (to_double mn) scale)) in
  Some (mk_qparams (to_float scale) z).
Proof. unfold ChooseQuantizationParams. rewrite f255_sub. reflexivity. Qed.
Lemma d0_ok : is_double (to_double (float_of_Z 0)) /\ valQ (to_double (float_of_Z 0)) == 0. Proof. split; [split|]; reflexivity. Qed.
Lemma d255_ok : is_double (to_double (float_of_Z 255)) /\ valQ (to_double (float_of_Z 255)) == 255. Proof. split; [split|]; reflexivity. Qed.
Lemma nudge_ok z : is_double z -> 0 <= valQ z ->
  exists n, nudge z = Some n /\ (0 <= n <= 255)%Z /\
    (valQ z <= 255 -> rounds_away (valQ z) n) /\ (255 < valQ z -> n = 255%Z).
Proof.
  intros H P. destruct d0_ok as [D0 E0], d255_ok as [D1 E1]. unfold nudge.
  assert (A : SFltb z (to_double (float_of_Z 0)) = false) by (apply (double_ltb_false _ _ H D0); rewrite E0; exact P).
  rewrite A. destruct (SFltb (to_double (float_of_Z 255)) z) eqn:B.
  - apply (double_ltb _ _ D1 H) in B. rewrite E1 in B. exists 255%Z. split; [reflexivity|]. split; [lia|]. split; intros; [lra | reflexivity].
  - apply (double_ltb_false _ _ D1 H) in B. rewrite E1 in B. destruct H as [V Fi].
    destruct (round_to_int_ok z Fi) as (n & En & Rn). exists n. rewrite En. cbn [bind]. unfold to_uint8.
    pose proof (rounds_away_range _ _ 0 255 Rn P B) as R.
    replace ((0 <=? n)%Z) with true by lia. replace ((n <=? 255)%Z) with true by lia.
    split; [reflexivity|]. split; [exact R|]. split; intros; [exact Rn | lra].
Qed.

(* the scale and the initial zero point when the scale is positive *)
Section Range.
Context (mn mx : float) (Hn : is_float mn) (Hx : is_float mx) (Nn : valQ mn <= 0) (Px : 0 <= valQ mx).
Notation R := (valQ mx - valQ mn).
Context (HR : R < thr24).
Lemma abs_R : Qabs R < thr24. Proof. rewrite Qabs_pos; lra. Qed.
Lemma diff_ok : is_float (fsub mx mn) /\ 0 <= valQ (fsub mx mn).
Proof.
  pose proof (fsub_ok mx mn Hx Hn) as H. split; [exact (rounded_float _ _ H abs_R)|].
  apply (rounded_ge 24 128 _ _ 0 H abs_R); [exact (zero_in_format _ _ p24 e128) | lra].
Qed.
Definition scale32 : float := fdiv (fsub mx mn) (float_of_Z 255).
Lemma scale_rounded : rounded 24 128 (valQ (fsub mx mn) / 255) scale32.
Proof.
  destruct diff_ok as [D _], f255_ok as [F E].
  apply (rounded_wd 24 128 (valQ (fsub mx mn) / valQ (float_of_Z 255))); [rewrite E; reflexivity|].
  apply fdiv_ok; [exact D | exact F | rewrite E; discriminate].
Qed.
Lemma div255 x : x / 255 == x * (1 # 255). Proof. reflexivity. Qed.
Lemma scale_arg : Qabs (valQ (fsub mx mn) / 255) < thr24.
Proof.
  destruct diff_ok as [D P]. pose proof (float_lt_thr _ D) as L. rewrite Qabs_pos in L by exact P.
  rewrite div255, Qabs_pos by lra. lra.
Qed.
Lemma scale_ok : is_float scale32 /\ 0 <= valQ scale32.
Proof.
  split; [exact (rounded_float _ _ scale_rounded scale_arg)|].
  destruct diff_ok as [D P].
  apply (rounded_ge 24 128 _ _ 0 scale_rounded scale_arg); [exact (zero_in_format _ _ p24 e128) | rewrite div255; lra].
Qed.
Definition izp : float := dsub (to_double (float_of_Z 0)) (ddiv (to_double mn) (to_double scale32)).
Lemma quot_small : 0 < valQ scale32 -> Qabs (valQ mn / valQ scale32) < pow2 278.
Proof.
  intros P. destruct scale_ok as [S _]. pose proof (float_min _ S P) as M. pose proof (float_lt_thr _ Hn) as L.
  rewrite Qabs_neg in L by exact Nn.
  assert (L2 : thr24 < pow2 128) by reflexivity.
  assert (E : valQ mn / valQ scale32 * valQ scale32 == valQ mn) by (field; apply Qneq_pos; exact P).
  set (q := valQ mn / valQ scale32) in *. assert (E2 : pow2 278 * pow2 (-149) == 2 * pow2 128) by reflexivity.
  pose proof (pow2_pos 128). pose proof (pow2_pos 278). pose proof (pow2_pos (-149)).
  apply Qabs_lt. split; nra.
Qed.
Lemma izp_ok : 0 < valQ scale32 -> is_double izp /\ 0 <= valQ izp /\
  Qabs (valQ izp + valQ mn / valQ scale32) <= pow2 (-53) * Qabs (valQ mn / valQ scale32) + pow2 (-1075).
Proof.
  intros P. destruct scale_ok as [S _]. destruct (to_double_ok _ S) as [DS ES]. destruct (to_double_ok _ Hn) as [DM EM].
  pose proof (quot_small P) as Q. set (q := valQ mn / valQ scale32) in *.
  assert (T : Qabs q < thr53) by (pose proof thr53_big; assert (pow2 278 < pow2 1023) by reflexivity; lra).
  assert (H : rounded 53 1024 q (ddiv (to_double mn) (to_double scale32))).
  { apply (rounded_wd 53 1024 (valQ (to_double mn) / valQ (to_double scale32))); [rewrite EM, ES; reflexivity|].
    apply ddiv_ok; [exact DM | exact DS | rewrite ES; apply Qneq_pos; exact P]. }
  set (u := ddiv (to_double mn) (to_double scale32)) in *.
  destruct (rounded_fin 53 1024 q u H T) as (A & B & I).
  assert (Du : is_double u) by (split; assumption).
  assert (q <= 0). { assert (E : q * valQ scale32 == valQ mn) by (unfold q; field; apply Qneq_pos; exact P). nra. }
  assert (U : valQ u <= 0) by (apply (rounded_le 53 1024 q u 0 H T); [exact (zero_in_format _ _ p53 e1024) | assumption]).
  destruct d0_ok as [D0 E0]. pose proof (dsub_ok _ _ D0 Du) as Z.
  destruct (rounded_exact _ _ p53 _ _ Z) as (ZA & ZB & ZC).
  { apply (in_format_wd _ _ (- valQ u)); [rewrite E0; ring | apply in_format_opp; exact I]. }
  change (dsub (to_double (float_of_Z 0)) u) with izp in ZA, ZB, ZC. rewrite E0 in ZC.
  split; [split; assumption|]. split; [rewrite ZC; lra|].
  pose proof (rounded_err_sum _ _ p53 e1024 q u H T) as Er. change (SpecFloat.emin 53 1024 - 1)%Z with (-1075)%Z in Er.
  assert (E3 : valQ izp + q == - (valQ u - q)) by (rewrite ZC; ring). rewrite E3, Qabs_opp. exact Er.
Qed.
End Range.
