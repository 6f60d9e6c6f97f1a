(* FloatProofs2.v: SpecFloat's operations meet FloatSpec.v. *)
From Coq Require Import SpecFloat QArith Qabs Qpower Lqa.
From Verif Require Import Base BaseLemmas FloatSpec FloatProofs.
#[local] Open Scope Q_scope.

Lemma pow2_pos e : 0 < pow2 e.
Proof. apply Qpower_0_lt. reflexivity. Qed.
Lemma pow2_add a b : pow2 (a + b) == pow2 a * pow2 b.
Proof. apply Qpower_plus. discriminate. Qed.
Lemma pow2_Z e : (0 <= e)%Z -> pow2 e == inject_Z (2 ^ e).
Proof. intros H. unfold pow2. rewrite (Zpower_Qpower 2 e H). reflexivity. Qed.
Lemma pow2_le a b : (a <= b)%Z -> pow2 a <= pow2 b.
Proof. intros H. apply Qpower_le_compat_l; [exact H | discriminate]. Qed.
Lemma pow2_lt a b : (a < b)%Z -> pow2 a < pow2 b.
Proof. intros H. apply Qpower_lt_compat_l; [exact H | reflexivity]. Qed.
Lemma pow2_sub e a : (a <= e)%Z -> pow2 e == inject_Z (2 ^ (e - a)) * pow2 a.
Proof.
  intros H. replace e with ((e - a) + a)%Z at 1 by lia. rewrite pow2_add, (pow2_Z (e - a)) by lia. reflexivity.
Qed.
Lemma inj_le a b : (a <= b)%Z <-> inject_Z a <= inject_Z b. Proof. rewrite <- Zle_Qle. reflexivity. Qed.
Lemma inj_lt a b : (a < b)%Z <-> inject_Z a < inject_Z b. Proof. rewrite <- Zlt_Qlt. reflexivity. Qed.
Lemma Qabs_le a b : Qabs a <= b <-> - b <= a /\ a <= b.
Proof. apply Qabs_Qle_condition. Qed.
Lemma Qabs_lt a b : Qabs a < b <-> - b < a /\ a < b.
Proof.
  split.
  - intros H. pose proof (Qle_Qabs a). pose proof (Qle_Qabs (- a)) as H1. rewrite Qabs_opp in H1. lra.
  - intros [H1 H2]. apply (Qabs_case a (fun z => z < b)); intros; lra.
Qed.
Lemma Qabs_scale a b : 0 <= b -> Qabs (a * b) == Qabs a * b.
Proof. intros. rewrite Qabs_Qmult. rewrite (Qabs_pos b) by assumption. reflexivity. Qed.

Ltac injz H := unfold Z.sub in H;
  repeat first [rewrite inject_Z_mult in H | rewrite inject_Z_plus in H | rewrite inject_Z_opp in H];
  change (inject_Z 0) with 0 in H; change (inject_Z 1) with 1 in H; change (inject_Z 2) with 2 in H.

(* an integer nearest to X compared with another integer *)
Lemma nearest_int X n k : Qabs (inject_Z n - X) <= 1 # 2 ->
  Qabs (inject_Z n - X) <= Qabs (inject_Z k - X) /\
  (Qabs (inject_Z n - X) == Qabs (inject_Z k - X) -> k = n \/ Qabs (inject_Z n - X) == 1 # 2).
Proof.
  intros H. destruct (Z.eq_dec k n) as [-> | Ne]; [split; [apply Qle_refl | intros _; left; reflexivity]|].
  apply Qabs_le in H.
  assert (H2 : 1 # 2 <= Qabs (inject_Z k - X)).
  { assert (k <= n - 1 \/ n + 1 <= k)%Z as [L | L] by lia; apply inj_le in L; unfold Z.sub in L; rewrite ?inject_Z_plus, ?inject_Z_opp in L;
      change (inject_Z 1) with 1 in L.
    - rewrite (Qabs_neg (inject_Z k - X)) by lra. lra.
    - rewrite (Qabs_pos (inject_Z k - X)) by lra. lra. }
  assert (H3 : Qabs (inject_Z n - X) <= 1 # 2) by (apply Qabs_le; exact H).
  split; [lra|]. intros E. right. lra.
Qed.

Section Round.
Context (prec emax : Z).
Context (Hp : (1 < prec)%Z) (He : (prec < emax)%Z).
Notation emin := (emin prec emax).
Notation fexp := (fexp prec emax).
Notation packed := (packed prec emax).
Notation in_format := (in_format prec emax).

Lemma pow_prec : (2 ^ prec = 2 * 2 ^ (prec - 1))%Z /\ (0 < 2 ^ (prec - 1))%Z /\ Z.even (2 ^ (prec - 1)) = true.
Proof.
  split; [|split].
  - rewrite <- Z.pow_succ_r by lia. f_equal. lia.
  - lia.
  - rewrite Z.even_pow by lia. reflexivity.
Qed.

(* n * 2^E fits or overflows *)
Lemma packed_ok s n E : (0 <= n <= 2 ^ prec)%Z -> (emin <= E)%Z -> (E = emin \/ 2 ^ (prec - 1) <= n)%Z ->
  ((E <= emax - prec /\ n < 2 ^ prec \/ E + 1 <= emax - prec)%Z ->
     is_fin (packed s n E) = true /\ valid_binary prec emax (packed s n E) = true /\ packed s n E <> S754_zero (negb s) /\
     valQ (packed s n E) == (if s then - inject_Z n else inject_Z n) * pow2 E /\
     in_format (inject_Z n * pow2 E) /\
     (Z.even n = true -> even_mantissa (packed s n E) = true)) /\
  (~ (E <= emax - prec /\ n < 2 ^ prec \/ E + 1 <= emax - prec)%Z -> packed s n E = S754_infinity s).
Proof.
  intros Hn HE Hnorm. destruct pow_prec as (P1 & P2 & P3). unfold FloatProofs.packed.
  destruct n as [|p|p]; [| | lia].
  { split.
    - intros _. split; [reflexivity|]. split; [reflexivity|]. split; [destruct s; discriminate|].
      split; [destruct s; cbn [valQ]; change (inject_Z 0) with 0; lra |].
      split; [| reflexivity].
      exists 0%Z, emin. split; [| change (inject_Z 0) with 0; lra]. unfold SpecFloat.emin in *. lia.
    - intros H. exfalso. apply H. left. unfold SpecFloat.emin in *. lia. }
  destruct (Z.eqb_spec (Zpos p) (2 ^ prec)) as [E2 | E2].
  - split; intros H.
    + assert (HE1 : (E + 1 <=? emax - prec)%Z = true) by lia. rewrite HE1.
      destruct (2 ^ (prec - 1))%Z as [|q|q] eqn:E4; [lia | | lia]. cbn [Z.to_pos is_fin valid_binary valQ even_mantissa].
      split; [reflexivity|]. split.
      { unfold bounded. rewrite HE1, andb_true_r. unfold canonical_mantissa. apply Zeq_is_eq_bool.
        assert (Ed : Zdigits2 (Zpos q) = (prec - 1 + 1)%Z).
        { apply Zdigits2_unique; [lia|]. rewrite <- E4. split; [lia|]. apply Z.pow_lt_mono_r; lia. }
        cbn [Zdigits2] in Ed. rewrite Ed. unfold SpecFloat.fexp. lia. }
      split; [discriminate|]. split.
      { rewrite (pow2_add E 1). change (pow2 1) with 2. rewrite E2, P1.
        destruct s; rewrite ?inject_Z_mult; change (inject_Z 2) with 2;
          [change (Zneg q) with (- Zpos q)%Z; rewrite inject_Z_opp|]; ring. }
      split; [|intros _; exact P3].
      exists (Zpos q), (E + 1)%Z. split; [unfold SpecFloat.emin in *; lia |].
      rewrite (pow2_add E 1), E2, P1, inject_Z_mult. change (pow2 1) with 2. change (inject_Z 2) with 2. ring.
    + assert (HE1 : (E + 1 <=? emax - prec)%Z = false) by lia. rewrite HE1. reflexivity.
  - split; intros H.
    + assert (HE1 : (E <=? emax - prec)%Z = true) by lia. rewrite HE1. cbn [Z.to_pos is_fin valid_binary valQ even_mantissa].
      split; [reflexivity|]. split.
      { unfold bounded. rewrite HE1, andb_true_r. unfold canonical_mantissa. apply Zeq_is_eq_bool.
        destruct (Zdigits2_ok (Zpos p)) as [P Q]; [lia|]. cbn [Zdigits2] in P, Q.
        assert (Z.pos (digits2_pos p) <= prec)%Z by (assert (Zpos (digits2_pos p) - 1 < prec)%Z by (apply (Z.pow_lt_mono_r_iff 2); lia); lia).
        destruct (Z.eq_dec E emin) as [->|Ne]; [unfold SpecFloat.fexp; lia |].
        assert (prec - 1 < Z.pos (digits2_pos p))%Z by (apply (Z.pow_lt_mono_r_iff 2); lia).
        unfold SpecFloat.fexp. lia. }
      split; [discriminate|]. split.
      { destruct s; [change (Zneg p) with (- Zpos p)%Z; rewrite inject_Z_opp|]; ring. }
      split; [|intros Hev; exact Hev].
      exists (Zpos p), E. split; [unfold SpecFloat.emin in *; lia | reflexivity].
    + assert (HE1 : (E <=? emax - prec)%Z = false) by lia. rewrite HE1. reflexivity.
Qed.

(* n * 2^E is a nearest number of the format *)
Lemma nearest_in_format n E X y : (emin <= E)%Z -> 0 <= X ->
  (E = emin \/ inject_Z (2 ^ (prec - 1)) <= X) -> Qabs (inject_Z n - X) <= 1 # 2 ->
  (Qabs (inject_Z n - X) == 1 # 2 -> Z.even n = true) -> in_format y ->
  Qabs (inject_Z n * pow2 E - X * pow2 E) <= Qabs (y - X * pow2 E) /\
  (Qabs (inject_Z n * pow2 E - X * pow2 E) == Qabs (y - X * pow2 E) -> y == inject_Z n * pow2 E \/ Z.even n = true).
Proof.
  intros HE HX Hnorm Hn Htie (k & e & [Hk [Hel Heu]] & Ey).
  destruct pow_prec as (P1 & P2 & P3).
  pose proof (pow2_pos E) as PE.
  assert (EA : Qabs (inject_Z n * pow2 E - X * pow2 E) == Qabs (inject_Z n - X) * pow2 E).
  { setoid_replace (inject_Z n * pow2 E - X * pow2 E) with ((inject_Z n - X) * pow2 E) by ring. apply Qabs_scale. lra. }
  assert (HY : exists Y, y == Y * pow2 E /\
     Qabs (inject_Z n - X) <= Qabs (Y - X) /\ (Qabs (inject_Z n - X) == Qabs (Y - X) -> Y == inject_Z n \/ Z.even n = true)).
  { destruct (Z_le_dec E e) as [Le | Gt].
    - exists (inject_Z (k * 2 ^ (e - E))). split.
      { rewrite Ey, (pow2_sub e E Le), inject_Z_mult. ring. }
      destruct (nearest_int X n (k * 2 ^ (e - E)) Hn) as [A B]. split; [exact A|].
      intros F. destruct (B F) as [-> | T]; [left; reflexivity | right; exact (Htie T)].
    - assert (HX2 : inject_Z (2 ^ (prec - 1)) <= X).
      { destruct Hnorm as [-> | H]; [| exact H]. exfalso. unfold SpecFloat.emin in *. lia. }
      exists (inject_Z k * pow2 (e - E)). split.
      { rewrite Ey. setoid_replace (inject_Z k * pow2 (e - E) * pow2 E) with (inject_Z k * (pow2 (e - E) * pow2 E)) by ring.
        rewrite <- pow2_add. replace (e - E + E)%Z with e by lia. reflexivity. }
      assert (Hs : inject_Z k * pow2 (e - E) < inject_Z (2 ^ (prec - 1))).
      { assert (pow2 (e - E) <= 1 # 2) by (change (1 # 2) with (pow2 (-1)); apply pow2_le; lia).
        pose proof (pow2_pos (e - E)).
        assert (k < 2 * 2 ^ (prec - 1))%Z as Hk2 by lia. apply inj_lt in Hk2. rewrite inject_Z_mult in Hk2.
        change (inject_Z 2) with 2 in Hk2. apply inj_lt in P2. change (inject_Z 0) with 0 in P2. nra. }
      destruct (nearest_int X n (2 ^ (prec - 1)) Hn) as [A _].
      rewrite (Qabs_neg (inject_Z (2 ^ (prec - 1)) - X)) in A by lra.
      rewrite (Qabs_neg (inject_Z k * pow2 (e - E) - X)) by lra.
      split; [lra|]. intros F. exfalso. lra. }
  destruct HY as (Y & EY & A & B).
  assert (EB : Qabs (y - X * pow2 E) == Qabs (Y - X) * pow2 E).
  { setoid_replace (y - X * pow2 E) with ((Y - X) * pow2 E) by (rewrite EY; ring). apply Qabs_scale. lra. }
  rewrite EA, EB. split.
  - apply Qmult_le_compat_r; lra.
  - intros F. apply Qmult_inj_r in F; [| lra]. destruct (B F) as [G | G]; [left | right; exact G].
    rewrite EY, G. reflexivity.
Qed.

Lemma in_format_opp y : in_format y -> in_format (- y).
Proof.
  intros (m & e & [H1 H2] & E). exists (- m)%Z, e. split; [rewrite Z.abs_opp; split; assumption|].
  rewrite E, inject_Z_opp. ring.
Qed.

Theorem round_aux_rounds s m e l num den : (0 < den)%Z -> (0 <= m)%Z -> inloc m l num den ->
  (e <= fexp (Zdigits2 m + e))%Z ->
  rounds_to prec emax s ((if s then - 1 else 1) * (inject_Z num / inject_Z den * pow2 e)) (binary_round_aux prec emax s m e l).
Proof.
  intros Hd Hm Hl Hx.
  destruct (binary_round_aux_spec prec emax Hp s m e l num den Hd Hm Hl Hx)
    as (n & E & -> & HeE & HE & _ & Hn & Hup & Hlow & Herr & Htie).
  set (D := (den * 2 ^ (E - e))%Z) in *.
  assert (HD : (0 < D)%Z) by (unfold D; apply Z.mul_pos_pos; lia).
  set (X := inject_Z num / inject_Z D).
  assert (QD : 0 < inject_Z D) by (apply inj_lt in HD; exact HD).
  assert (Qd : 0 < inject_Z den) by (apply inj_lt in Hd; exact Hd).
  assert (EX : inject_Z num / inject_Z den * pow2 e == X * pow2 E).
  { unfold X, D. rewrite (pow2_sub E e HeE), inject_Z_mult.
    assert (Q2 : 0 < inject_Z (2 ^ (E - e))) by (apply (proj1 (inj_lt 0 _)); apply Z.pow_pos_nonneg; lia). field. split; intros F; rewrite F in *; lra. }
  assert (EN : inject_Z num == X * inject_Z D) by (unfold X; field; intros F; rewrite F in *; lra).
  assert (Hnum : (0 <= num)%Z).
  { clear - Hl Hm Hd. destruct l as [|c]; cbn [inloc] in Hl; nia. }
  assert (HX : 0 <= X) by (unfold X; apply (inj_le 0) in Hnum; apply Qle_shift_div_l; [exact QD |]; change (inject_Z 0) with 0 in Hnum; lra).
  assert (Hnorm : (E = emin \/ inject_Z (2 ^ (prec - 1)) <= X)).
  { destruct Hlow as [H | [H _]]; [left; exact H | right]. apply inj_le in H. rewrite inject_Z_mult in H.
    unfold X. apply Qle_shift_div_l; [exact QD | exact H]. }
  assert (Hnorm2 : (E = emin \/ 2 ^ (prec - 1) <= n)%Z) by (clear - Hlow; tauto).
  assert (Hnear : Qabs (inject_Z n - X) <= 1 # 2).
  { apply Qabs_le. destruct Herr as [H1 H2]. apply inj_le in H1, H2.
    injz H1; injz H2. rewrite EN in H1, H2. split; apply Qmult_le_l with (z := inject_Z D); lra. }
  assert (Heven : Qabs (inject_Z n - X) == 1 # 2 -> Z.even n = true).
  { intros H. apply Htie.
    assert (F : inject_Z (2 * (n * D - num)) == inject_Z D \/ inject_Z (2 * (n * D - num)) == inject_Z (- D)).
    { unfold Z.sub. rewrite inject_Z_mult, inject_Z_plus, !inject_Z_opp, inject_Z_mult, EN. change (inject_Z 2) with 2.
      revert H. apply (Qabs_case (inject_Z n - X)); intros S H; [left | right].
      - setoid_replace (inject_Z n) with (X + (1 # 2)) by lra. ring.
      - setoid_replace (inject_Z n) with (X - (1 # 2)) by lra. ring. }
    destruct F as [F | F]; [left | right]; apply (proj1 (inject_Z_injective _ _)) in F; exact F. }
  assert (HupX : X < inject_Z (2 ^ prec)).
  { apply inj_lt in Hup. rewrite inject_Z_mult in Hup. unfold X. apply Qlt_shift_div_r; [exact QD | exact Hup]. }
  pose proof (pow2_pos E) as PE. destruct pow_prec as (P1 & P2 & P3).
  assert (Qp : inject_Z (2 ^ prec) == 2 * inject_Z (2 ^ (prec - 1))) by (rewrite P1, inject_Z_mult; reflexivity).
  assert (Qp1 : 2 <= inject_Z (2 ^ (prec - 1))).
  { apply (proj1 (inj_le 2 _)). apply (Z.pow_le_mono_r 2 1); lia. }
  pose proof (pow2_pos (emax - prec)) as PM.
  assert (Eabs : Qabs ((if s then - 1 else 1) * (inject_Z num / inject_Z den * pow2 e)) == X * pow2 E).
  { rewrite EX. assert (0 <= X * pow2 E) by (apply Qmult_le_0_compat; lra).
    destruct s; [rewrite (Qabs_neg (-1 * (X * pow2 E))) by lra | rewrite (Qabs_pos (1 * (X * pow2 E))) by lra]; ring. }
  assert (Hdec : X * pow2 E < overflow_threshold prec emax <-> (E <= emax - prec /\ n < 2 ^ prec \/ E + 1 <= emax - prec)%Z).
  { unfold overflow_threshold. apply Qabs_le in Hnear.
    destruct (Z_lt_le_dec E (emax - prec)) as [L | L].
    - split; [intros _; right; lia | intros _].
      assert (pow2 (E + 1) <= pow2 (emax - prec)) as G by (apply pow2_le; lia).
      rewrite pow2_add in G. change (pow2 1) with 2 in G.
      apply Qlt_le_trans with (inject_Z (2 ^ prec) * pow2 E); [apply Qmult_lt_compat_r; lra |].
      rewrite Qp. nra.
    - destruct (Z.eq_dec E (emax - prec)) as [-> | Ne].
      + destruct (Z_lt_le_dec n (2 ^ prec)) as [Ln | Ln].
        * split; [intros _; left; lia | intros _]. apply Qmult_lt_compat_r; [exact PM|].
          destruct (Z.eq_dec n (2 ^ prec - 1)) as [En | Nn].
          -- destruct (Qlt_le_dec X (inject_Z (2 ^ prec) - (1 # 2))) as [G | G]; [exact G | exfalso].
             assert (En' : inject_Z n == inject_Z (2 ^ prec) - 1).
             { rewrite En. unfold Z.sub. rewrite inject_Z_plus. reflexivity. }
             assert (Z.even n = true) as Ev by (apply Heven; rewrite (Qabs_neg (inject_Z n - X)) by lra; lra).
             rewrite En, P1, Z.even_sub, Z.even_mul in Ev. discriminate Ev.
          -- assert (n <= 2 ^ prec - 2)%Z as Hle by lia. apply inj_le in Hle. unfold Z.sub in Hle.
             rewrite inject_Z_plus, inject_Z_opp in Hle. change (inject_Z 2) with 2 in Hle. lra.
        * split; [| lia]. intros G. exfalso. apply inj_le in Ln.
          apply Qmult_lt_r in G; [| exact PM]. lra.
      + split; [| lia]. intros G. exfalso.
        assert (pow2 (emax - prec + 1) <= pow2 E) as G2 by (apply pow2_le; lia).
        rewrite pow2_add in G2. change (pow2 1) with 2 in G2.
        assert (inject_Z (2 ^ (prec - 1)) <= X) as G3.
        { destruct Hnorm as [F | F]; [| exact F]. exfalso. unfold SpecFloat.emin in *. lia. }
        rewrite Qp in G. nra. }
  destruct (packed_ok s n E Hn HE Hnorm2) as [Hfit Hinf].
  split.
  - rewrite Eabs. intros Hlt. apply Hdec in Hlt. destruct (Hfit Hlt) as (A1 & A2 & A3 & A4 & A5 & A6).
    split; [exact A1|]. split; [exact A2|]. split; [exact A3|].
    assert (A7 : valQ (packed s n E) == (if s then - 1 else 1) * (inject_Z n * pow2 E)) by (rewrite A4; destruct s; ring).
    split.
    { destruct A5 as (k & e' & Hke & Ek). destruct s.
      - destruct (in_format_opp (inject_Z n * pow2 E)) as (k2 & e2 & Hke2 & Ek2); [exists k, e'; split; assumption|].
        exists k2, e2. split; [exact Hke2|]. rewrite A7, <- Ek2. ring.
      - exists k, e'. split; [exact Hke|]. rewrite A7, <- Ek. ring. }
    intros y Hy.
    assert (Hy' : in_format ((if s then - 1 else 1) * y)).
    { destruct s.
      - destruct (in_format_opp y Hy) as (k2 & e2 & Hke2 & Ek2). exists k2, e2. split; [exact Hke2|]. rewrite <- Ek2. ring.
      - destruct Hy as (k2 & e2 & Hke2 & Ek2). exists k2, e2. split; [exact Hke2|]. rewrite <- Ek2. ring. }
    destruct (nearest_in_format n E X _ HE HX Hnorm Hnear Heven Hy') as [B1 B2].
    assert (C1 : Qabs (valQ (packed s n E) - (if s then - 1 else 1) * (inject_Z num / inject_Z den * pow2 e))
                 == Qabs (inject_Z n * pow2 E - X * pow2 E)).
    { rewrite A7, EX. destruct s.
      - rewrite <- Qabs_opp. apply Qabs_wd. ring.
      - apply Qabs_wd. ring. }
    assert (C2 : Qabs (y - (if s then - 1 else 1) * (inject_Z num / inject_Z den * pow2 e))
                 == Qabs ((if s then - 1 else 1) * y - X * pow2 E)).
    { rewrite EX. destruct s.
      - rewrite <- Qabs_opp. apply Qabs_wd. ring.
      - apply Qabs_wd. ring. }
    rewrite C1, C2. split; [exact B1|].
    intros F. destruct (B2 F) as [G | G]; [left | right; exact (A6 G)].
    rewrite A7, <- G. destruct s; ring.
  - rewrite Eabs. intros Hge. apply Hinf. intros F. apply Hdec in F. lra.
Qed.
End Round.
