(* FloatProofs3.v: the four operations, conversions from integers and
   comparisons of SpecFloat are correctly rounded. *)
From Coq Require Import SpecFloat QArith Qabs Qpower Lqa.
From Verif Require Import Base BaseLemmas FloatSpec FloatProofs FloatProofs2.
#[local] Open Scope Q_scope.

Lemma Qneq_pos x : 0 < x -> ~ x == 0.
Proof. intros H F. rewrite F in H. lra. Qed.
Definition sgn (s : bool) : Q := if s then - 1 else 1.
Lemma inj_neg p : inject_Z (Zneg p) == - inject_Z (Zpos p).
Proof. reflexivity. Qed.
Lemma inj_pos_pos p : 0 < inject_Z (Zpos p).
Proof. apply (proj1 (inj_lt 0 _)). reflexivity. Qed.
Lemma valQ_finite s m e : valQ (S754_finite s m e) == sgn s * (inject_Z (Zpos m) * pow2 e).
Proof. cbn [valQ]. unfold sgn. destruct s; [rewrite inj_neg|]; ring. Qed.
Definition sign_of (f : spec_float) : bool :=
  match f with S754_zero s | S754_infinity s | S754_finite s _ _ => s | S754_nan => false end.

Section Ops.
Context (prec emax : Z).
Context (Hp : (1 < prec)%Z) (He : (prec < emax)%Z).
Notation emin := (emin prec emax).
Notation fexp := (fexp prec emax).
Notation in_format := (in_format prec emax).
Notation rounds_to := (rounds_to prec emax).
Notation valid := (valid_binary prec emax).
Notation thr := (overflow_threshold prec emax).

Lemma in_format_wd x y : x == y -> in_format x -> in_format y.
Proof. intros E (m & e & H & E2). exists m, e. split; [exact H|]. rewrite <- E. exact E2. Qed.
Lemma rounds_to_wd s x y f : x == y -> rounds_to s x f -> rounds_to s y f.
Proof.
  intros E [H1 H2]. split.
  - rewrite <- E. intros H. destruct (H1 H) as (A & B & C & D & F).
    split; [exact A|]. split; [exact B|]. split; [exact C|]. split; [exact D|].
    intros z Hz. rewrite <- E. exact (F z Hz).
  - rewrite <- E. exact H2.
Qed.
Lemma thr_pos : 0 < thr.
Proof.
  unfold overflow_threshold. pose proof (pow2_pos (emax - prec)).
  assert (1 <= inject_Z (2 ^ prec)) by (apply (proj1 (inj_le 1 _)); lia). nra.
Qed.
Lemma zero_in_format : in_format 0.
Proof. exists 0%Z, emin. split; [unfold SpecFloat.emin; lia | change (inject_Z 0) with 0; ring]. Qed.
Lemma in_format_lt_thr y : in_format y -> Qabs y < thr.
Proof.
  intros (m & e & [H1 [H2 H3]] & E). rewrite E. rewrite Qabs_scale by (pose proof (pow2_pos e); lra).
  unfold overflow_threshold.
  assert (A : Qabs (inject_Z m) <= inject_Z (2 ^ prec) - 1).
  { rewrite <- (inject_Z_opp 1) || idtac. assert (Hm : (- (2 ^ prec - 1) <= m <= 2 ^ prec - 1)%Z) by lia.
    destruct Hm as [A B]. apply inj_le in A, B. injz A; injz B. apply Qabs_le. lra. }
  assert (B : pow2 e <= pow2 (emax - prec)) by (apply pow2_le; lia).
  pose proof (pow2_pos e). pose proof (Qabs_nonneg (inject_Z m)). nra.
Qed.
Lemma rounds_zero s : rounds_to s 0 (S754_zero s).
Proof.
  split.
  - intros _. split; [reflexivity|]. split; [reflexivity|]. split; [destruct s; discriminate|].
    split; [exact zero_in_format|]. intros y Hy. split; [| intros _; right; reflexivity].
    cbn [valQ]. change (Qabs (0 - 0)) with 0. apply Qabs_nonneg.
  - intros H. exfalso. pose proof thr_pos. change (Qabs 0) with 0 in H. lra.
Qed.

(* what validity means *)
Lemma valid_inv s m e : valid (S754_finite s m e) = true ->
  (fexp (Z.pos (digits2_pos m) + e) = e /\ emin <= e <= emax - prec /\ Zpos m < 2 ^ prec /\
   (e = emin \/ 2 ^ (prec - 1) <= Zpos m))%Z.
Proof.
  cbn [valid_binary]. unfold bounded, canonical_mantissa. intros H. apply andb_prop in H. destruct H as [H1 H2].
  apply Zeq_bool_eq in H1. pose proof (Zle_bool_imp_le _ _ H2) as H3.
  destruct (digits2_pos_ok m) as [A B].
  split; [exact H1|]. assert (C : (Zpos (digits2_pos m) <= prec)%Z) by (unfold SpecFloat.fexp in H1; lia).
  split; [unfold SpecFloat.fexp in H1; lia |]. split.
  { apply Z.lt_le_trans with (2 ^ Zpos (digits2_pos m))%Z; [exact B|]. apply Z.pow_le_mono_r; lia. }
  destruct (Z.eq_dec e emin) as [|Ne]; [left; assumption | right].
  replace prec with (Zpos (digits2_pos m)) by (unfold SpecFloat.fexp in H1; lia). exact A.
Qed.
Lemma valid_in_format f : valid f = true -> in_format (valQ f).
Proof.
  destruct f as [s|s| |s m e]; try (intros _; exact zero_in_format).
  intros H. destruct (valid_inv _ _ _ H) as (_ & He' & Hm & _).
  exists (if s then Zneg m else Zpos m), e. split; [| reflexivity].
  unfold SpecFloat.emin in *. destruct s; cbn [Z.abs]; lia.
Qed.

(* ------------------------------------------------------------------ *)
Lemma digits_mul a b : (Zpos (digits2_pos a) + Zpos (digits2_pos b) - 1 <= Zpos (digits2_pos (a * b)))%Z.
Proof.
  destruct (digits2_pos_ok a) as [A1 A2], (digits2_pos_ok b) as [B1 B2], (digits2_pos_ok (a * b)) as [C1 C2].
  assert (H : (2 ^ (Zpos (digits2_pos a) - 1 + (Zpos (digits2_pos b) - 1)) <= Zpos (a * b))%Z).
  { rewrite Z.pow_add_r by lia. rewrite Pos2Z.inj_mul. apply Z.mul_le_mono_nonneg; try assumption; apply Z.pow_nonneg; lia. }
  assert (H2 : (Zpos (digits2_pos a) - 1 + (Zpos (digits2_pos b) - 1) < Zpos (digits2_pos (a * b)))%Z).
  { apply (Z.pow_lt_mono_r_iff 2); [lia | lia |]. eapply Z.le_lt_trans; [exact H | exact C2]. }
  lia.
Qed.
Theorem mul_rounds x y : valid x = true -> valid y = true -> is_fin x = true -> is_fin y = true ->
  rounds_to (xorb (sign_of x) (sign_of y)) (valQ x * valQ y) (SFmul prec emax x y).
Proof.
  destruct x as [sx|sx| |sx mx ex], y as [sy|sy| |sy my ey]; cbn [is_fin]; try discriminate; intros Vx Vy _ _.
  1-3: eapply rounds_to_wd; [| apply rounds_zero]; cbn [valQ sign_of]; ring.
  cbn [SFmul sign_of].
  eapply rounds_to_wd; [| apply (round_aux_rounds prec emax Hp He) with (num := Zpos (mx * my)) (den := 1%Z)]; try lia.
  - rewrite !valQ_finite, Pos2Z.inj_mul, inject_Z_mult, pow2_add. change (inject_Z 1) with 1.
    unfold sgn. destruct sx, sy; cbn [xorb]; field.
  - cbn [inloc]. lia.
  - cbn [Zdigits2]. destruct (valid_inv _ _ _ Vx) as (Ex & Hx & _ & _), (valid_inv _ _ _ Vy) as (Ey & Hy & _ & _).
    pose proof (digits_mul mx my). clear Vx Vy. unfold SpecFloat.fexp, SpecFloat.emin in *. lia.
Qed.

(* division of any positive integers *)
Lemma new_location_ok m2 r q : (0 < m2)%Z -> (0 <= r < m2)%Z -> inloc q (new_location m2 r) (q * m2 + r) m2.
Proof.
  intros Hm Hr. unfold new_location, new_location_even, new_location_odd.
  destruct (Z.eq_dec r 0) as [-> | E].
  - destruct (Z.even m2); cbv beta; change (Zeq_bool 0 0) with true; cbv beta iota; cbn [inloc]; lia.
  - assert (Ez : Zeq_bool r 0 = false) by (apply not_true_is_false; intros F; apply Zeq_bool_eq in F; contradiction).
    destruct (Z.even m2) eqn:Ev; cbv beta; rewrite Ez; cbv beta iota; cbn [inloc].
    + split; [lia|]. destruct (Z.compare_spec (2 * r) m2); lia.
    + split; [lia|]. rewrite <- Z.negb_odd in Ev. apply negb_false_iff, Z.odd_spec in Ev. destruct Ev as [k Ek].
      destruct (Z.compare_spec (2 * r + 1) m2); lia.
Qed.
Lemma div_core_ok m1 e1 m2 e2 : (0 < m1)%Z -> (0 < m2)%Z ->
  exists q e l num, SFdiv_core_binary prec emax m1 e1 m2 e2 = (q, e, l) /\ (0 <= q)%Z /\ inloc q l num m2 /\
    (e <= fexp (Zdigits2 q + e))%Z /\
    inject_Z num / inject_Z m2 * pow2 e == inject_Z m1 / inject_Z m2 * pow2 (e1 - e2).
Proof.
  intros H1 H2. unfold SFdiv_core_binary.
  set (d1 := Zdigits2 m1). set (d2 := Zdigits2 m2).
  set (e := Z.min (fexp (d1 + e1 - (d2 + e2))) (e1 - e2)).
  set (s := (e1 - e2 - e)%Z). assert (Hs : (0 <= s)%Z) by (subst s e; lia).
  assert (Em : match s with Z0 => m1 | Zpos _ => Z.shiftl m1 s | Zneg _ => 0%Z end = (m1 * 2 ^ s)%Z).
  { destruct s as [|p|p] eqn:E; [cbn; lia | rewrite Z.shiftl_mul_pow2 by lia; reflexivity | lia]. }
  rewrite Em. clear Em. pose proof (Z_div_mod (m1 * 2 ^ s) m2) as Hdm.
  destruct (Z.div_eucl (m1 * 2 ^ s) m2) as [q r]. destruct Hdm as [Eq Hr]; [lia|].
  exists q, e, (new_location m2 r), (m1 * 2 ^ s)%Z.
  assert (P : (0 < m1 * 2 ^ s)%Z) by (apply Z.mul_pos_pos; [lia | apply Z.pow_pos_nonneg; lia]).
  assert (Hq : (0 <= q)%Z) by nia.
  split; [reflexivity|]. split; [exact Hq|]. split.
  { rewrite Eq, Z.mul_comm. apply new_location_ok; lia. }
  split.
  { assert (Hd : (d1 + s - d2 <= Zdigits2 q)%Z).
    { destruct (Zdigits2_ok m1 H1) as [A1 A2], (Zdigits2_ok m2 H2) as [B1 B2]. fold d1 in A1, A2. fold d2 in B1, B2.
      destruct (Z.eq_dec q 0) as [-> | Nq].
      - cbn [Zdigits2]. assert (d1 - 1 + s < d2)%Z; [|lia]. apply (Z.pow_lt_mono_r_iff 2); [lia | lia |].
        rewrite Z.pow_add_r by lia. apply Z.le_lt_trans with (m1 * 2 ^ s)%Z; [apply Z.mul_le_mono_nonneg_r; [apply Z.pow_nonneg; lia | lia] | lia].
      - destruct (Zdigits2_ok q) as [C1 C2]; [lia|].
        assert (d1 - 1 + s < Zdigits2 q + d2)%Z; [|lia]. apply (Z.pow_lt_mono_r_iff 2); [lia | lia |].
        rewrite !Z.pow_add_r by lia.
        apply Z.le_lt_trans with (m1 * 2 ^ s)%Z; [apply Z.mul_le_mono_nonneg_r; [apply Z.pow_nonneg; lia | lia] |].
        rewrite Eq. apply Z.lt_le_trans with ((q + 1) * m2)%Z; [lia|]. apply Z.mul_le_mono_nonneg; lia. }
    clear Eq Hr P. unfold s in Hd. unfold e at 1. unfold SpecFloat.fexp in *. lia. }
  assert (E2 : pow2 (e1 - e2) == inject_Z (2 ^ s) * pow2 e) by (apply pow2_sub; subst s; lia).
  rewrite E2, inject_Z_mult. field. apply Qneq_pos. apply (proj1 (inj_lt 0 _)). exact H2.
Qed.
Theorem div_rounds x y : valid x = true -> valid y = true -> is_fin x = true -> is_fin y = true -> ~ valQ y == 0 ->
  rounds_to (xorb (sign_of x) (sign_of y)) (valQ x / valQ y) (SFdiv prec emax x y).
Proof.
  destruct x as [sx|sx| |sx mx ex], y as [sy|sy| |sy my ey]; cbn [is_fin]; try discriminate; intros Vx Vy _ _ Ny.
  1,3: exfalso; apply Ny; reflexivity.
  - eapply rounds_to_wd; [| apply rounds_zero]. change (valQ (S754_zero sx)) with 0. unfold Qdiv. ring.
  - cbn [SFdiv sign_of].
    destruct (div_core_ok (Zpos mx) ex (Zpos my) ey) as (q & e & l & num & -> & Hq & Hl & Hx & E); [reflexivity | reflexivity |].
    eapply rounds_to_wd; [| apply (round_aux_rounds prec emax Hp He) with (num := num) (den := Zpos my)]; try assumption; try reflexivity.
    rewrite E, !valQ_finite. unfold Z.sub. rewrite pow2_add. unfold pow2 at 2. rewrite Qpower_opp. fold (pow2 ey).
    pose proof (pow2_pos ey). pose proof (inj_pos_pos my).
    unfold sgn. destruct sx, sy; cbn [xorb]; field; repeat split; try (apply Qneq_pos; assumption); intros F; lra.
Qed.

Lemma round_rounds s m e : rounds_to s (sgn s * (inject_Z (Zpos m) * pow2 e)) (binary_round prec emax s m e).
Proof.
  unfold binary_round, shl_align.
  set (F := fexp (Z.pos (digits2_pos m) + e)).
  destruct (F - e)%Z as [|d|d] eqn:Ed.
  1,2: eapply rounds_to_wd; [| apply (round_aux_rounds prec emax Hp He) with (num := Zpos m) (den := 1%Z)]; try lia;
    [change (inject_Z 1) with 1; unfold sgn; destruct s; field | cbn [inloc]; lia | cbn [Zdigits2]; fold F; lia].
  assert (Es : Zpos (shift_pos d m) = (Zpos m * 2 ^ Zpos d)%Z).
  { rewrite shift_pos_correct. change (Z.pow_pos 2 d) with (2 ^ Zpos d)%Z. ring. }
  eapply rounds_to_wd; [| apply (round_aux_rounds prec emax Hp He) with (num := Zpos (shift_pos d m)) (den := 1%Z)]; try lia.
  - rewrite Es, inject_Z_mult. rewrite <- pow2_Z by lia.
    replace e with (Zpos d + F)%Z by lia. rewrite pow2_add. change (inject_Z 1) with 1. unfold sgn; destruct s; field.
  - cbn [inloc]. lia.
  - assert (Eq : Zdigits2 (Zpos (shift_pos d m)) = (Zpos (digits2_pos m) + Zpos d - 1 + 1)%Z).
    { apply Zdigits2_unique; [lia|]. rewrite Es. destruct (digits2_pos_ok m) as [A B].
      replace (Zpos (digits2_pos m) + Zpos d - 1)%Z with (Zpos (digits2_pos m) - 1 + Zpos d)%Z by lia.
      replace (Zpos (digits2_pos m) - 1 + Zpos d + 1)%Z with (Zpos (digits2_pos m) + Zpos d)%Z by lia.
      rewrite !Z.pow_add_r by lia. split; [apply Z.mul_le_mono_nonneg_r; [apply Z.pow_nonneg; lia | exact A] |].
      apply Z.mul_lt_mono_pos_r; [apply Z.pow_pos_nonneg; lia | exact B]. }
    rewrite Eq. assert (EF : (Zpos (digits2_pos m) + Zpos d - 1 + 1 + F = Zpos (digits2_pos m) + e)%Z) by lia.
    rewrite EF. fold F. lia.
Qed.
Lemma normalize_rounds m e s0 :
  rounds_to (match m with Z0 => s0 | Zpos _ => false | Zneg _ => true end) (inject_Z m * pow2 e) (binary_normalize prec emax m e s0).
Proof.
  destruct m as [|p|p]; cbn [binary_normalize].
  - eapply rounds_to_wd; [| apply rounds_zero]. change (inject_Z 0) with 0. ring.
  - eapply rounds_to_wd; [| apply round_rounds]. unfold sgn. ring.
  - eapply rounds_to_wd; [| apply round_rounds]. unfold sgn. rewrite inj_neg. ring.
Qed.
(* rounding without regard to the sign of a zero *)
Definition rounded (x : Q) (f : spec_float) : Prop := exists s, rounds_to s x f.
Lemma valid_rounded f : valid f = true -> is_fin f = true -> rounded (valQ f) f.
Proof.
  intros V Fi. exists (sign_of f). pose proof (valid_in_format f V) as I. pose proof (in_format_lt_thr _ I) as L. split.
  - intros _. split; [exact Fi|]. split; [exact V|]. split; [destruct f as [[]|[]| |]; discriminate|]. split; [exact I|].
    intros y Hy. assert (E : Qabs (valQ f - valQ f) == 0) by (setoid_replace (valQ f - valQ f) with 0 by ring; reflexivity).
    split; [rewrite E; apply Qabs_nonneg|]. rewrite E. intros F. left.
    assert (Qabs (y - valQ f) <= 0) as G by (rewrite <- F; apply Qle_refl). apply Qabs_le in G. lra.
  - intros H. lra.
Qed.
Lemma shl_align_ok m e ez : (ez <= e)%Z -> inject_Z (Zpos (fst (shl_align m e ez))) * pow2 ez == inject_Z (Zpos m) * pow2 e.
Proof.
  intros H. unfold shl_align. destruct (ez - e)%Z as [|d|d] eqn:Ed; cbn [fst].
  - replace ez with e by lia. reflexivity.
  - lia.
  - rewrite shift_pos_correct. change (Z.pow_pos 2 d) with (2 ^ Zpos d)%Z.
    rewrite inject_Z_mult, <- pow2_Z by lia. replace e with (Zpos d + ez)%Z by lia. rewrite pow2_add. ring.
Qed.
Lemma cond_opp s z : inject_Z (cond_Zopp s z) == sgn s * inject_Z z.
Proof. unfold sgn. destruct s; cbn [cond_Zopp]; [rewrite inject_Z_opp|]; ring. Qed.
Lemma rounded_wd x y f : x == y -> rounded x f -> rounded y f.
Proof. intros E [s H]. exists s. apply (rounds_to_wd s x); assumption. Qed.
Theorem add_rounds x y : valid x = true -> valid y = true -> is_fin x = true -> is_fin y = true ->
  rounded (valQ x + valQ y) (SFadd prec emax x y).
Proof.
  destruct x as [sx|sx| |sx mx ex], y as [sy|sy| |sy my ey]; cbn [is_fin]; try discriminate; intros Vx Vy _ _.
  - cbn [SFadd valQ]. destruct (Bool.eqb sx sy); eexists; (eapply rounds_to_wd; [| apply rounds_zero]); ring.
  - cbn [SFadd]. eapply rounded_wd; [| apply valid_rounded; [exact Vy | reflexivity]]. cbn [valQ]. ring.
  - cbn [SFadd]. eapply rounded_wd; [| apply valid_rounded; [exact Vx | reflexivity]]. cbn [valQ]. ring.
  - cbn [SFadd]. eexists. eapply rounds_to_wd; [| apply normalize_rounds].
    rewrite !valQ_finite, inject_Z_plus, !cond_opp.
    rewrite <- (shl_align_ok mx ex (Z.min ex ey)), <- (shl_align_ok my ey (Z.min ex ey)) by lia. ring.
Qed.
Theorem sub_rounds x y : valid x = true -> valid y = true -> is_fin x = true -> is_fin y = true ->
  rounded (valQ x - valQ y) (SFsub prec emax x y).
Proof.
  destruct x as [sx|sx| |sx mx ex], y as [sy|sy| |sy my ey]; cbn [is_fin]; try discriminate; intros Vx Vy _ _.
  - cbn [SFsub valQ]. destruct (Bool.eqb sx (negb sy)); eexists; (eapply rounds_to_wd; [| apply rounds_zero]); ring.
  - cbn [SFsub]. assert (V : valid (S754_finite (negb sy) my ey) = true) by exact Vy.
    eapply rounded_wd; [| apply valid_rounded; [exact V | reflexivity]]. rewrite !valQ_finite. cbn [valQ].
    unfold sgn. destruct sy; cbn [negb]; ring.
  - cbn [SFsub]. eapply rounded_wd; [| apply valid_rounded; [exact Vx | reflexivity]]. cbn [valQ]. ring.
  - cbn [SFsub]. eexists. eapply rounds_to_wd; [| apply normalize_rounds].
    rewrite !valQ_finite. unfold Z.sub. rewrite inject_Z_plus, inject_Z_opp, !cond_opp.
    rewrite <- (shl_align_ok mx ex (Z.min ex ey)), <- (shl_align_ok my ey (Z.min ex ey)) by lia. ring.
Qed.

(* ------------------------------------------------------------------ *)
(* consequences *)
Lemma rounded_fin x f : rounded x f -> Qabs x < thr -> is_fin f = true /\ valid f = true /\ in_format (valQ f).
Proof. intros [s [H _]] L. destruct (H L) as (A & B & _ & D & _). auto. Qed.
Lemma rounded_near x f y : rounded x f -> Qabs x < thr -> in_format y -> Qabs (valQ f - x) <= Qabs (y - x).
Proof. intros [s [H _]] L Hy. destruct (H L) as (_ & _ & _ & _ & F). apply (F y Hy). Qed.
Lemma rounded_exact x f : rounded x f -> in_format x -> is_fin f = true /\ valid f = true /\ valQ f == x.
Proof.
  intros H I. pose proof (in_format_lt_thr x I) as L. destruct (rounded_fin x f H L) as (A & B & _).
  pose proof (rounded_near x f x H L I) as N. split; [exact A|]. split; [exact B|].
  setoid_replace (x - x) with 0 in N by ring. change (Qabs 0) with 0 in N. apply Qabs_le in N. lra.
Qed.
Lemma rounded_le x f y : rounded x f -> Qabs x < thr -> in_format y -> x <= y -> valQ f <= y.
Proof.
  intros H L Hy Hle. pose proof (rounded_near x f y H L Hy) as N. rewrite (Qabs_pos (y - x)) in N by lra.
  apply Qabs_le in N. lra.
Qed.
Lemma rounded_ge x f y : rounded x f -> Qabs x < thr -> in_format y -> y <= x -> y <= valQ f.
Proof.
  intros H L Hy Hle. pose proof (rounded_near x f y H L Hy) as N. rewrite (Qabs_neg (y - x)) in N by lra.
  apply Qabs_le in N. lra.
Qed.

(* every number has a format number close to it *)
Lemma close_exists x : Qabs x < thr -> exists y, in_format y /\
  (Qabs (y - x) <= pow2 (- prec) * Qabs x \/ Qabs (y - x) <= pow2 (emin - 1)).
Proof.
  assert (Pos : forall x, 0 < x -> x < thr -> exists y, in_format y /\ (Qabs (y - x) <= pow2 (- prec) * x \/ Qabs (y - x) <= pow2 (emin - 1))).
  { clear x. intros x Px Lx. destruct x as [a b].
    assert (Ha : (0 < a)%Z) by (unfold Qlt in Px; cbn in Px; lia).
    assert (Ex : a # b == inject_Z a / inject_Z (Zpos b) * pow2 (0 - 0)).
    { rewrite (Qmake_Qdiv a b). change (pow2 (0 - 0)) with 1. field. apply Qneq_pos, inj_pos_pos. }
    destruct (div_core_ok a 0 (Zpos b) 0 Ha) as (q & e & l & num & _ & Hq & Hl & Hx & E); [reflexivity|].
    rewrite <- Ex in E. 
    pose proof (round_aux_rounds prec emax Hp He false q e l num (Zpos b) ltac:(reflexivity) Hq Hl Hx) as [R _].
    destruct (binary_round_aux_spec prec emax Hp false q e l num (Zpos b) ltac:(reflexivity) Hq Hl Hx)
      as (n & F & ER & HeE & HE & _ & Hn & Hup & Hlow & Herr & _).
    rewrite Qmult_1_l, E, (Qabs_pos (a # b)) in R by lra. destruct (R Lx) as (A1 & A2 & A3 & A4 & A5).
    rewrite ER in *. clear ER.
    exists (valQ (packed prec emax false n F)). split; [exact A4|].
    assert (EV : valQ (packed prec emax false n F) == inject_Z n * pow2 F).
    { assert (Hn2 : (F = emin \/ 2 ^ (prec - 1) <= n)%Z) by tauto.
      destruct (packed_ok prec emax Hp He false n F Hn HE Hn2) as [P1 P2].
      destruct (Z_le_dec (F + 1) (emax - prec)) as [C1 | C1].
      { destruct P1 as (_ & _ & _ & V & _); [right; exact C1 |]. exact V. }
      destruct (Z_le_dec F (emax - prec)) as [C2 | C2], (Z_lt_dec n (2 ^ prec)) as [C3 | C3];
        try (rewrite P2 in A1 by lia; discriminate A1).
      destruct P1 as (_ & _ & _ & V & _); [left; lia |]. exact V. }
    rewrite EV. set (D := (Zpos b * 2 ^ (F - e))%Z) in *.
    assert (HD : (0 < D)%Z) by (unfold D; apply Z.mul_pos_pos; [lia | apply Z.pow_pos_nonneg; lia]).
    assert (QD : 0 < inject_Z D) by (apply (proj1 (inj_lt 0 _)); exact HD).
    assert (EX : a # b == inject_Z num / inject_Z D * pow2 F).
    { rewrite <- E. unfold D. rewrite (pow2_sub F e HeE), inject_Z_mult. field. split; apply Qneq_pos.
      - apply (proj1 (inj_lt 0 _)). apply Z.pow_pos_nonneg; lia.
      - apply inj_pos_pos. }
    set (X := inject_Z num / inject_Z D) in *.
    assert (EN : inject_Z num == X * inject_Z D) by (unfold X; field; apply Qneq_pos; exact QD).
    pose proof (pow2_pos F) as PF.
    assert (Hnear : Qabs (inject_Z n - X) <= 1 # 2).
    { apply Qabs_le. destruct Herr as [H1 H2]. apply inj_le in H1, H2.
      injz H1; injz H2. rewrite EN in H1, H2. split; apply Qmult_le_l with (z := inject_Z D); lra. }
    assert (EA : Qabs (inject_Z n * pow2 F - (a # b)) == Qabs (inject_Z n - X) * pow2 F).
    { rewrite EX. setoid_replace (inject_Z n * pow2 F - X * pow2 F) with ((inject_Z n - X) * pow2 F) by ring. apply Qabs_scale. lra. }
    rewrite EA. destruct Hlow as [-> | [Hlow _]].
    - right. replace (emin - 1)%Z with (- 1 + emin)%Z by lia. rewrite pow2_add. change (pow2 (- 1)) with (1 # 2).
      apply Qmult_le_compat_r; lra.
    - left. apply inj_le in Hlow. rewrite inject_Z_mult, EN in Hlow. apply Qmult_le_r in Hlow; [| exact QD].
      rewrite EX. rewrite Qmult_assoc. apply Qmult_le_compat_r; [| lra].
      apply Qle_trans with (1 # 2); [exact Hnear|].
      assert (Ep : pow2 (- prec) * inject_Z (2 ^ (prec - 1)) == 1 # 2).
      { rewrite <- pow2_Z by lia. rewrite <- pow2_add. replace (- prec + (prec - 1))%Z with (- 1)%Z by lia. reflexivity. }
      rewrite <- Ep. rewrite !(Qmult_comm (pow2 (- prec))). apply Qmult_le_compat_r; [exact Hlow |]. pose proof (pow2_pos (- prec)). lra. }
  intros L. destruct (Qlt_le_dec 0 x) as [P | P].
  - rewrite Qabs_pos in L by lra. destruct (Pos x P L) as (y & Iy & C). exists y. split; [exact Iy|].
    rewrite (Qabs_pos x) by lra. exact C.
  - destruct (Qlt_le_dec x 0) as [N | N].
    + rewrite Qabs_neg in L by lra. destruct (Pos (- x)) as (y & Iy & C); [lra | exact L |].
      exists (- y). split; [apply in_format_opp; assumption|].
      rewrite (Qabs_neg x) by lra.
      assert (E : Qabs (- y - x) == Qabs (y - - x)) by (rewrite <- Qabs_opp; apply Qabs_wd; ring). rewrite E. exact C.
    + exists 0. split; [exact zero_in_format|]. right.
      assert (E : Qabs (0 - x) == 0) by (assert (Ez : 0 - x == 0) by lra; rewrite Ez; reflexivity).
      rewrite E. pose proof (pow2_pos (emin - 1)). lra.
Qed.
Lemma rounded_err x f : rounded x f -> Qabs x < thr ->
  Qabs (valQ f - x) <= pow2 (- prec) * Qabs x \/ Qabs (valQ f - x) <= pow2 (emin - 1).
Proof.
  intros H L. destruct (close_exists x L) as (y & Iy & C). pose proof (rounded_near x f y H L Iy).
  destruct C as [C | C]; [left | right]; lra.
Qed.
Lemma rounded_err_sum x f : rounded x f -> Qabs x < thr ->
  Qabs (valQ f - x) <= pow2 (- prec) * Qabs x + pow2 (emin - 1).
Proof.
  intros H L. pose proof (pow2_pos (emin - 1)). pose proof (pow2_pos (- prec)). pose proof (Qabs_nonneg x).
  destruct (rounded_err x f H L); nra.
Qed.

(* comparisons *)
Lemma compare_ok x y : valid x = true -> valid y = true -> is_fin x = true -> is_fin y = true ->
  SFcompare x y = Some (valQ x ?= valQ y).
Proof.
  assert (Pm : forall m1 e1 m2 e2, valid (S754_finite false m1 e1) = true -> valid (S754_finite false m2 e2) = true ->
    (e1 < e2)%Z -> inject_Z (Zpos m1) * pow2 e1 < inject_Z (Zpos m2) * pow2 e2).
  { intros m1 e1 m2 e2 V1 V2 L. destruct (valid_inv _ _ _ V1) as (_ & R1 & U1 & _), (valid_inv _ _ _ V2) as (_ & R2 & _ & L2).
    destruct (pow_prec prec Hp) as (P1 & P2 & _).
    assert (L3 : (2 ^ (prec - 1) <= Zpos m2)%Z) by lia.
    assert (G : pow2 (e1 + 1) <= pow2 e2) by (apply pow2_le; lia). rewrite pow2_add in G. change (pow2 1) with 2 in G.
    pose proof (pow2_pos e1). apply inj_lt in U1. rewrite P1 in U1. injz U1. apply inj_le in L3.
    assert (0 < inject_Z (2 ^ (prec - 1))) by (apply (proj1 (inj_lt 0 _)); exact P2).
    set (K := inject_Z (2 ^ (prec - 1))) in *.
    apply Qlt_le_trans with (2 * K * pow2 e1); [apply Qmult_lt_compat_r; assumption|].
    apply Qle_trans with (K * pow2 e2); [nra | apply Qmult_le_compat_r; lra]. }
  assert (Pc : forall m1 e1 m2 e2, valid (S754_finite false m1 e1) = true -> valid (S754_finite false m2 e2) = true ->
    match Z.compare e1 e2 with Lt => Lt | Gt => Gt | Eq => Pcompare m1 m2 Eq end
      = (inject_Z (Zpos m1) * pow2 e1 ?= inject_Z (Zpos m2) * pow2 e2)).
  { intros m1 e1 m2 e2 V1 V2. destruct (Z.compare_spec e1 e2) as [-> | L | L].
    - change (Pos.compare_cont Eq m1 m2) with (Zpos m1 ?= Zpos m2)%Z. pose proof (pow2_pos e2).
      destruct (Z.compare_spec (Zpos m1) (Zpos m2)) as [E | L | L]; symmetry.
      + rewrite E. apply (proj1 (Qeq_alt _ _)). reflexivity.
      + apply inj_lt in L. apply (proj1 (Qlt_alt _ _)). apply Qmult_lt_compat_r; assumption.
      + apply inj_lt in L. apply (proj1 (Qgt_alt _ _)). apply Qmult_lt_compat_r; assumption.
    - symmetry. apply (proj1 (Qlt_alt _ _)). apply Pm; assumption.
    - symmetry. apply (proj1 (Qgt_alt _ _)). apply Pm; assumption. }
  assert (Pp : forall m e, 0 < inject_Z (Zpos m) * pow2 e).
  { intros m e. pose proof (inj_pos_pos m). pose proof (pow2_pos e). apply Qmult_lt_0_compat; assumption. }
  destruct x as [sx|sx| |sx mx ex], y as [sy|sy| |sy my ey]; cbn [is_fin]; try discriminate; intros Vx Vy _ _.
  - reflexivity.
  - unfold SFcompare. f_equal. pose proof (Pp my ey). symmetry. rewrite valQ_finite. cbn [valQ]. unfold sgn.
    destruct sy; cbv beta iota; [apply (proj1 (Qgt_alt _ _)) | apply (proj1 (Qlt_alt _ _))]; lra.
  - unfold SFcompare. f_equal. pose proof (Pp mx ex). symmetry. rewrite valQ_finite. cbn [valQ]. unfold sgn.
    destruct sx; cbv beta iota; [apply (proj1 (Qlt_alt _ _)) | apply (proj1 (Qgt_alt _ _))]; lra.
  - unfold SFcompare. f_equal. pose proof (Pp mx ex). pose proof (Pp my ey).
    pose proof (Pc mx ex my ey Vx Vy) as C. rewrite !valQ_finite. unfold sgn.
    destruct sx, sy; cbv beta iota.
    + assert (C2 : match (ex ?= ey)%Z with Lt => Gt | Gt => Lt | Eq => CompOpp (Pcompare mx my Eq) end
        = CompOpp (match (ex ?= ey)%Z with Lt => Lt | Gt => Gt | Eq => Pcompare mx my Eq end)) by (destruct (ex ?= ey)%Z; reflexivity).
      rewrite C2, C. clear C C2.
      destruct (Qcompare_spec (inject_Z (Zpos mx) * pow2 ex) (inject_Z (Zpos my) * pow2 ey)) as [E | E | E]; cbn [CompOpp]; symmetry.
      * apply (proj1 (Qeq_alt _ _)). rewrite E. reflexivity.
      * apply (proj1 (Qgt_alt _ _)). lra.
      * apply (proj1 (Qlt_alt _ _)). lra.
    + symmetry. apply (proj1 (Qlt_alt _ _)). lra.
    + symmetry. apply (proj1 (Qgt_alt _ _)). lra.
    + rewrite C. apply Qcompare_comp; ring.
Qed.
Lemma ltb_ok x y : valid x = true -> valid y = true -> is_fin x = true -> is_fin y = true ->
  (SFltb x y = true <-> valQ x < valQ y).
Proof.
  intros. unfold SFltb. rewrite compare_ok by assumption.
  destruct (Qcompare_spec (valQ x) (valQ y)); split; intros; try reflexivity; try discriminate; lra.
Qed.
End Ops.
