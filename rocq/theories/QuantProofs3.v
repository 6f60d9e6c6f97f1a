(* QuantProofs3.v: when ChooseQuantizationParams is defined. *)
From Coq Require Import SpecFloat QArith Qabs Qpower Qminmax Lqa.
From Verif Require Import Base BaseLemmas EightBitModel QuantModel FloatSpec FloatProofs FloatProofs2 FloatProofs3 QuantSpec QuantProofs QuantProofs2.
#[local] Open Scope Q_scope.

Lemma tiny_format k : (0 <= k < 2 ^ 24)%Z -> in_format 24 128 (inject_Z k * pow2 (-149)).
Proof. intros H. exists k, (-149)%Z. split; [lia | reflexivity]. Qed.
Lemma zero_value f : is_float f -> valQ f == 0 -> exists s, f = S754_zero s.
Proof.
  intros [V Fi] E. destruct f as [s|s| |s m e]; try discriminate Fi; [exists s; reflexivity|].
  exfalso. rewrite valQ_finite in E. pose proof (inj_pos_pos m). pose proof (pow2_pos e). unfold sgn in E. destruct s; nra.
Qed.
Lemma neg_value f : is_double f -> valQ f < 0 -> exists m e, f = S754_finite true m e.
Proof.
  intros [V Fi] E. destruct f as [s|s| |s m e]; try discriminate Fi; [cbn [valQ] in E; lra|].
  destruct s; [exists m, e; reflexivity|]. exfalso. rewrite valQ_finite in E. pose proof (inj_pos_pos m). pose proof (pow2_pos e).
  unfold sgn in E. nra.
Qed.
Section Range.
Context (mn mx : float) (Hn : is_float mn) (Hx : is_float mx) (Nn : valQ mn <= 0) (Px : 0 <= valQ mx).
Notation R := (valQ mx - valQ mn).
Context (HR : R < thr24).
Notation scale := (scale32 mn mx).
Lemma scale_pos : inject_Z 128 * pow2 (-149) <= R -> 0 < valQ scale.
Proof.
  intros H. destruct (diff_ok mn mx Hn Hx Nn Px HR) as [D P].
  pose proof (fsub_ok mx mn Hx Hn) as Rd. pose proof (abs_R mn mx Nn Px HR) as AR.
  assert (L : inject_Z 128 * pow2 (-149) <= valQ (fsub mx mn)) by (apply (rounded_ge 24 128 _ _ _ Rd AR); [apply tiny_format; lia | exact H]).
  pose proof (scale_rounded mn mx Hn Hx Nn Px HR) as RS. pose proof (scale_arg mn mx Hn Hx Nn Px HR) as AS.
  pose proof (pow2_pos (-149)) as T.
  destruct (Qlt_le_dec (valQ (fsub mx mn) / 255) (inject_Z 1 * pow2 (-149))) as [C | C].
  - pose proof (rounded_near 24 128 _ _ _ RS AS (tiny_format 1 ltac:(lia))) as N.
    change (inject_Z 1) with 1 in *. change (inject_Z 128) with 128 in *.
    set (x := valQ (fsub mx mn) / 255) in *. assert (Ex : x * 255 == valQ (fsub mx mn)) by (unfold x; field).
    rewrite (Qabs_pos (1 * pow2 (-149) - x)) in N by lra. apply Qabs_le in N. lra.
  - pose proof (rounded_ge 24 128 _ _ _ RS AS (tiny_format 1 ltac:(lia)) C). change (inject_Z 1) with 1 in *. lra.
Qed.
Lemma scale_zero : valQ mn == 0 -> valQ mx <= inject_Z 127 * pow2 (-149) -> valQ scale == 0.
Proof.
  intros M H. destruct (diff_ok mn mx Hn Hx Nn Px HR) as [D P].
  pose proof (fsub_ok mx mn Hx Hn) as Rd. pose proof (abs_R mn mx Nn Px HR) as AR.
  assert (L : valQ (fsub mx mn) <= inject_Z 127 * pow2 (-149)) by (apply (rounded_le 24 128 _ _ _ Rd AR); [apply tiny_format; lia | lra]).
  pose proof (scale_rounded mn mx Hn Hx Nn Px HR) as RS. pose proof (scale_arg mn mx Hn Hx Nn Px HR) as AS.
  destruct (scale_ok mn mx Hn Hx Nn Px HR) as [S S0]. pose proof (pow2_pos (-149)) as T.
  destruct (Qlt_le_dec 0 (valQ scale)) as [C | C]; [exfalso | lra].
  pose proof (float_min _ S C) as M2. change (inject_Z 127) with 127 in *.
  pose proof (rounded_near 24 128 _ _ 0 RS AS (zero_in_format _ _ p24 e128)) as N.
  set (x := valQ (fsub mx mn) / 255) in *. assert (Ex : x * 255 == valQ (fsub mx mn)) by (unfold x; field).
  rewrite (Qabs_neg (0 - x)) in N by lra. apply Qabs_le in N. lra.
Qed.
End Range.

Lemma nudge_inf s : exists n, nudge (dsub (to_double (float_of_Z 0)) (S754_infinity s)) = Some n /\ (0 <= n <= 255)%Z.
Proof. destruct s; eexists; (split; [reflexivity | lia]). Qed.
Lemma mn_ok min : is_float min -> is_float (fmin min (float_of_Z 0)) /\ valQ (fmin min (float_of_Z 0)) == Qmin (valQ min) 0.
Proof.
  intros H. destruct fzero_ok as [F E]. destruct (fmin_ok _ _ H F) as [A B]. split; [exact A|]. rewrite B, E. reflexivity.
Qed.
Lemma mx_ok max : is_float max -> is_float (fmax max (float_of_Z 0)) /\ valQ (fmax max (float_of_Z 0)) == Qmax (valQ max) 0.
Proof.
  intros H. destruct fzero_ok as [F E]. destruct (fmax_ok _ _ H F) as [A B]. split; [exact A|]. rewrite B, E. reflexivity.
Qed.

Theorem choose_ok min max : is_float min -> is_float max ->
  (valQ min < 0 \/ inject_Z 128 * pow2 (-149) <= valQ max) ->
  let R := Qmax (valQ max) 0 - Qmin (valQ min) 0 in
  exists q, ChooseQuantizationParams min max = Some q /\ (0 <= q_zero_point q <= 255)%Z /\
    (R < thr24 -> is_float (q_scale q) /\ 0 <= valQ (q_scale q)) /\
    (R < thr24 -> inject_Z 128 * pow2 (-149) <= R -> 0 < valQ (q_scale q)).
Proof.
  intros Hmin Hmax C R. rewrite choose_eq. cbv zeta.
  destruct (mn_ok min Hmin) as [Hn En], (mx_ok max Hmax) as [Hx Ex].
  set (mn := fmin min (float_of_Z 0)) in *. set (mx := fmax max (float_of_Z 0)) in *.
  assert (Nn : valQ mn <= 0) by (rewrite En; apply Q.le_min_r).
  assert (Px : 0 <= valQ mx) by (rewrite Ex; apply Q.le_max_r).
  assert (ER : R == valQ mx - valQ mn) by (unfold R; rewrite En, Ex; reflexivity).
  fold (scale32 mn mx).
  destruct (Qlt_le_dec R thr24) as [L | L].
  - rewrite ER in L. destruct (scale_ok mn mx Hn Hx Nn Px L) as [S S0].
    destruct (to_float_ok _ S) as [TF TE].
    assert (Fin : (R < thr24 -> is_float (to_float (to_double (scale32 mn mx))) /\ 0 <= valQ (to_float (to_double (scale32 mn mx)))) /\
      (R < thr24 -> inject_Z 128 * pow2 (-149) <= R -> 0 < valQ (to_float (to_double (scale32 mn mx))))).
    { split; [intros _; split; [exact TF | rewrite TE; exact S0]|].
      intros _ G. rewrite TE. apply scale_pos; try assumption. rewrite <- ER. exact G. }
    assert (Z : exists n, nudge (dsub (to_double (float_of_Z 0)) (ddiv (to_double mn) (to_double (scale32 mn mx)))) = Some n /\ (0 <= n <= 255)%Z).
    { destruct (Qlt_le_dec 0 (valQ (scale32 mn mx))) as [P | P].
      - destruct (izp_ok mn mx Hn Hx Nn Px L P) as (D & D0 & _).
        destruct (nudge_ok _ D D0) as (n & N1 & N2 & _). exists n. auto.
      - assert (Z : valQ (scale32 mn mx) == 0) by lra. destruct (zero_value _ S Z) as [s Es].
        destruct (Qlt_le_dec (valQ mn) 0) as [M | M].
        + destruct (to_double_ok _ Hn) as [DM EM]. rewrite <- EM in M. destruct (neg_value _ DM M) as (m & e & E).
          rewrite E, Es. apply nudge_inf.
        + exfalso. destruct C as [C | C].
          * rewrite En in M. rewrite Q.min_l in M by lra. lra.
          * assert (G : 0 < valQ (scale32 mn mx)); [| lra]. apply scale_pos; try assumption.
            assert (valQ max <= valQ mx) by (rewrite Ex; apply Q.le_max_l). lra. }
    destruct Z as (n & N1 & N2). rewrite N1. cbn [bind]. eexists. split; [reflexivity|]. cbn [q_scale q_zero_point].
    split; [exact N2 | exact Fin].
  - assert (FR : forall P, R < thr24 -> P) by (intros; exfalso; lra).
    destruct (fsub_ok mx mn Hx Hn) as [s [_ H]].
    assert (E : fsub mx mn = S754_infinity s).
    { apply H. rewrite Qabs_pos; lra. }
    assert (ES : scale32 mn mx = S754_infinity s) by (unfold scale32; rewrite E; destruct s; reflexivity).
    rewrite ES.
    assert (Z : exists z, ddiv (to_double mn) (to_double (S754_infinity s)) = S754_zero z).
    { destruct (to_double_ok _ Hn) as [[_ FM] _]. destruct (to_double mn) as [z|z| |z m e]; try discriminate FM; eexists; reflexivity. }
    destruct Z as [z Ez]. rewrite Ez. exists (mk_qparams (to_float (to_double (S754_infinity s))) 0).
    split; [destruct z; reflexivity|]. cbn [q_scale q_zero_point]. split; [lia|]. split; intros F; exact (FR _ F).
Qed.

(* the all-zero matrix, and every nonnegative range too small for the scale *)
Theorem choose_undefined min max : is_float min -> is_float max ->
  0 <= valQ min -> valQ max <= inject_Z 127 * pow2 (-149) -> ChooseQuantizationParams min max = None.
Proof.
  intros Hmin Hmax C1 C2. rewrite choose_eq. cbv zeta.
  destruct (mn_ok min Hmin) as [Hn En], (mx_ok max Hmax) as [Hx Ex].
  set (mn := fmin min (float_of_Z 0)) in *. set (mx := fmax max (float_of_Z 0)) in *.
  rewrite Q.min_r in En by lra.
  assert (Px : 0 <= valQ mx) by (rewrite Ex; apply Q.le_max_r).
  assert (P : 0 < inject_Z 127 * pow2 (-149)) by reflexivity.
  assert (Ux : valQ mx <= inject_Z 127 * pow2 (-149)) by (rewrite Ex; apply Q.max_lub; lra).
  assert (T : inject_Z 127 * pow2 (-149) < thr24) by reflexivity.
  assert (L : valQ mx - valQ mn < thr24) by lra.
  assert (Nn : valQ mn <= 0) by lra.
  fold (scale32 mn mx).
  destruct (scale_ok mn mx Hn Hx Nn Px L) as [S S0].
  destruct (zero_value _ S (scale_zero mn mx Hn Hx Nn Px L En Ux)) as [s Es].
  destruct (zero_value _ Hn En) as [sn Esn]. rewrite Es, Esn. destruct s, sn; reflexivity.
Qed.
