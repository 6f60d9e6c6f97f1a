(* FloatProofs.v: the floating point operations of the standard library's
   SpecFloat round to nearest, ties to even.  An exact nonnegative value is
   given as num / den * 2^e. *)
From Coq Require Import SpecFloat.
From Verif Require Import Base BaseLemmas.
#[local] Open Scope Z_scope.

Definition inloc (m : Z) (l : location) (num den : Z) : Prop :=
  match l with
  | loc_Exact => num = m * den
  | loc_Inexact c => m * den < num < (m + 1) * den /\
      match c with
      | Lt => 2 * num < (2 * m + 1) * den
      | Eq => 2 * num = (2 * m + 1) * den
      | Gt => 2 * num > (2 * m + 1) * den
      end
  end.

Lemma shr_1_m r : 0 <= shr_m r -> shr_m (shr_1 r) = shr_m r / 2.
Proof.
  destruct r as [[|p|p] r s]; cbn; intros H; [reflexivity | | lia].
  destruct p as [p|p|]; cbn; [| | reflexivity].
  - rewrite Pos2Z.inj_xI. rewrite Z.mul_comm, Z.div_add_l by lia. cbn. lia.
  - rewrite Pos2Z.inj_xO, Z.mul_comm, Z.div_mul by lia. reflexivity.
Qed.
Lemma shr_1_loc r num den : 0 < den -> 0 <= shr_m r -> inloc (shr_m r) (loc_of_shr_record r) num den ->
  inloc (shr_m (shr_1 r)) (loc_of_shr_record (shr_1 r)) num (2 * den).
Proof.
  intros Hd Hm H. pose proof (shr_1_m r Hm) as E.
  assert (Hr : shr_m r = 2 * shr_m (shr_1 r) \/ shr_m r = 2 * shr_m (shr_1 r) + 1) by lia.
  destruct r as [m r s]. cbn [shr_m] in *.
  set (m1 := shr_m (shr_1 {| shr_m := m; shr_r := r; shr_s := s |})) in *.
  assert (Hb : shr_r (shr_1 {| shr_m := m; shr_r := r; shr_s := s |}) = Z.odd m).
  { destruct m as [|[p|p|]|p]; cbn; try reflexivity. lia. }
  assert (Hs : shr_s (shr_1 {| shr_m := m; shr_r := r; shr_s := s |}) = orb r s).
  { destruct m as [|[p|p|]|p]; cbn; try reflexivity. lia. }
  assert (EL : loc_of_shr_record (shr_1 {| shr_m := m; shr_r := r; shr_s := s |})
     = loc_of_shr_record {| shr_m := m1; shr_r := Z.odd m; shr_s := orb r s |}).
  { unfold m1. rewrite <- Hb, <- Hs. destruct (shr_1 _); reflexivity. }
  rewrite EL. clear EL Hb Hs E. clearbody m1.
  assert (Ho : m = 2 * m1 /\ Z.odd m = false \/ m = 2 * m1 + 1 /\ Z.odd m = true).
  { destruct Hr as [-> | ->]; [left | right]; (split; [reflexivity|]).
    - rewrite Z.odd_mul. reflexivity.
    - rewrite Z.odd_add, Z.odd_mul. reflexivity. }
  destruct Ho as [[-> Ho] | [-> Ho]]; rewrite Ho; clear Ho Hr; destruct r, s; cbn [inloc loc_of_shr_record orb] in H |- *; lia.
Qed.
Lemma iter_pos_ind {A} (f : A -> A) (P : Z -> A -> Prop) :
  (forall k x, 0 <= k -> P k x -> P (k + 1) (f x)) ->
  forall n k x, 0 <= k -> P k x -> P (k + Zpos n) (SpecFloat.iter_pos f n x).
Proof.
  intros Hf. induction n as [n IH|n IH|]; intros k x Hk Hx; cbn [SpecFloat.iter_pos].
  - replace (k + Z.pos n~1) with ((k + 1 + Zpos n) + Zpos n) by lia. apply IH; [lia|]. apply IH; [lia|]. apply Hf; assumption.
  - replace (k + Z.pos n~0) with ((k + Zpos n) + Zpos n) by lia. apply IH; [lia|]. apply IH; assumption.
  - apply Hf; assumption.
Qed.
Lemma shr_loc r e n num den : 0 < den -> 0 <= shr_m r -> 0 <= n -> inloc (shr_m r) (loc_of_shr_record r) num den ->
  exists r', shr r e n = (r', e + n) /\ shr_m r' = shr_m r / 2 ^ n /\
    inloc (shr_m r') (loc_of_shr_record r') num (den * 2 ^ n).
Proof.
  intros Hd Hm Hn H. destruct n as [|n|n]; [| |lia]; cbn [shr].
  { exists r. rewrite Z.add_0_r. repeat split; [rewrite Z.div_1_r; reflexivity|]. rewrite Z.mul_1_r. exact H. }
  exists (SpecFloat.iter_pos shr_1 n r). split; [reflexivity|].
  pose (P := fun k r' => shr_m r' = shr_m r / 2 ^ k /\ inloc (shr_m r') (loc_of_shr_record r') num (den * 2 ^ k)).
  change (P (0 + Zpos n) (SpecFloat.iter_pos shr_1 n r)). apply iter_pos_ind; [| lia |].
  - intros k x Hk [E L]. assert (0 < 2 ^ k) by lia.
    assert (0 <= shr_m x) by (rewrite E; apply Z.div_pos; lia).
    split.
    + rewrite shr_1_m by assumption. rewrite E, Z.div_div by lia. rewrite Z.pow_add_r by lia. reflexivity.
    + replace (den * 2 ^ (k + 1)) with (2 * (den * 2 ^ k)) by (rewrite Z.pow_add_r by lia; ring).
      apply shr_1_loc; [nia | assumption | exact L].
  - split; [rewrite Z.div_1_r; reflexivity | rewrite Z.mul_1_r; exact H].
Qed.

Lemma digits2_pos_ok p : 2 ^ (Zpos (digits2_pos p) - 1) <= Zpos p < 2 ^ Zpos (digits2_pos p).
Proof.
  induction p as [p IH|p IH|]; cbn [digits2_pos]; [| | cbn; lia].
  all: rewrite Pos2Z.inj_succ; set (d := Zpos (digits2_pos p)) in *.
  all: assert (Hd : 0 <= d - 1) by (subst d; clear; lia); clearbody d.
  all: replace (Z.succ d - 1) with (Z.succ (d - 1)) by (clear; lia).
  all: rewrite (Z.pow_succ_r 2 (d - 1)) by exact Hd; rewrite (Z.pow_succ_r 2 d) by (clear - Hd; lia).
  all: revert IH; generalize (2 ^ (d - 1)) (2 ^ d); intros a b IH; try rewrite (Pos2Z.inj_xI p); try rewrite (Pos2Z.inj_xO p); clear Hd; lia.
Qed.
Lemma Zdigits2_ok m : 0 < m -> 0 < Zdigits2 m /\ 2 ^ (Zdigits2 m - 1) <= m < 2 ^ Zdigits2 m.
Proof. destruct m as [|p|p]; cbn [Zdigits2]; intros; [lia | | lia]. split; [lia|]. apply digits2_pos_ok. Qed.
Lemma Zdigits2_unique m d : 0 <= d -> 2 ^ d <= m < 2 ^ (d + 1) -> Zdigits2 m = d + 1.
Proof.
  intros Hd H. assert (0 < m) by (assert (0 < 2 ^ d) by lia; lia).
  destruct (Zdigits2_ok m) as [P Q]; [assumption|].
  assert (Zdigits2 m - 1 < d + 1) by (apply (Z.pow_lt_mono_r_iff 2); lia).
  assert (d < Zdigits2 m) by (apply (Z.pow_lt_mono_r_iff 2); lia). lia.
Qed.

Lemma rne_ok m l num den : 0 < den -> 0 <= m -> inloc m l num den ->
  let n := round_nearest_even m l in
  (n = m \/ n = m + 1 /\ m * den < num) /\ - den <= 2 * (n * den - num) <= den /\
  (2 * (n * den - num) = den \/ 2 * (n * den - num) = - den -> Z.even n = true).
Proof.
  intros Hd Hm H. destruct l as [|[]]; cbn [inloc round_nearest_even] in *.
  - subst. split; [left; reflexivity|]. lia.
  - destruct H as [H1 H2]. destruct (Z.even m) eqn:E.
    + split; [left; reflexivity|]. split; [lia|]. intros _. exact E.
    + split; [right; lia|]. split; [lia|]. intros _. rewrite Z.even_add, E. reflexivity.
  - destruct H as [H1 H2]. split; [left; reflexivity|]. split; [lia|]. lia.
  - destruct H as [H1 H2]. split; [right; lia|]. split; [lia|]. lia.
Qed.

Section Round.
Context (prec emax : Z).
Context (Hp : 1 < prec) (He : prec < emax).
Notation emin := (emin prec emax).
Notation fexp := (fexp prec emax).

(* the result of rounding: n * 2^E in the format, or infinity *)
Definition packed (s : bool) (n E : Z) : spec_float :=
  match n with
  | Zpos _ =>
      let '(m, e) := if n =? 2 ^ prec then (2 ^ (prec - 1), E + 1) else (n, E) in
      if e <=? emax - prec then S754_finite s (Z.to_pos m) e else S754_infinity s
  | _ => S754_zero s
  end.

Lemma emin_le : emin < emax - prec. Proof. unfold SpecFloat.emin. lia. Qed.

Theorem binary_round_aux_spec s m e l num den : 0 < den -> 0 <= m -> inloc m l num den -> e <= fexp (Zdigits2 m + e) ->
  exists n E, binary_round_aux prec emax s m e l = packed s n E /\
    e <= E /\ emin <= E /\ E = fexp (Zdigits2 m + e) /\ 0 <= n <= 2 ^ prec /\ num < 2 ^ prec * (den * 2 ^ (E - e)) /\
    (E = emin \/ 2 ^ (prec - 1) * (den * 2 ^ (E - e)) <= num /\ 2 ^ (prec - 1) <= n) /\
    - (den * 2 ^ (E - e)) <= 2 * (n * (den * 2 ^ (E - e)) - num) <= den * 2 ^ (E - e) /\
    (2 * (n * (den * 2 ^ (E - e)) - num) = den * 2 ^ (E - e) \/ 2 * (n * (den * 2 ^ (E - e)) - num) = - (den * 2 ^ (E - e)) ->
     Z.even n = true).
Proof.
  intros Hd Hm Hl Hx. unfold binary_round_aux. unfold shr_fexp at 1.
  set (E := fexp (Zdigits2 m + e)) in *.
  assert (Ee : emin <= E) by (unfold E, SpecFloat.fexp; lia).
  assert (HR : exists r, r = shr_record_of_loc m l /\ shr_m r = m /\ loc_of_shr_record r = l).
  { exists (shr_record_of_loc m l). destruct l as [|[]]; repeat split. }
  destruct HR as (r & <- & Em & El). rewrite <- Em, <- El in Hl.
  destruct (shr_loc r e (E - e) num den Hd) as (r' & Er & Em' & L'); [lia | lia | exact Hl |].
  rewrite Er. replace (e + (E - e)) with E by lia.
  set (D := den * 2 ^ (E - e)) in *. assert (HD : 0 < D) by (unfold D; apply Z.mul_pos_pos; lia).
  rewrite Em in Em'. set (m' := shr_m r') in *.
  assert (Hm' : 0 <= m') by (rewrite Em'; apply Z.div_pos; lia).
  destruct (rne_ok m' (loc_of_shr_record r') num D HD Hm' L') as (Hn1 & Hn2 & Hn3).
  set (n := round_nearest_even m' (loc_of_shr_record r')) in *.
  assert (Hup : m' < 2 ^ prec).
  { rewrite Em'. apply Z.div_lt_upper_bound; [lia|]. rewrite <- Z.pow_add_r by lia.
    destruct (Z.eq_dec m 0) as [-> | Nz]; [lia|].
    destruct (Zdigits2_ok m) as [P Q]; [lia|].
    apply Z.lt_le_trans with (2 ^ Zdigits2 m); [lia|]. apply Z.pow_le_mono_r; [lia|].
    unfold E, SpecFloat.fexp. lia. }
  assert (Hlow : E = emin \/ 2 ^ (prec - 1) <= m').
  { destruct (Z.eq_dec E emin) as [|Ne]; [left; assumption | right].
    assert (Zdigits2 m + e - prec = E) by (unfold E, SpecFloat.fexp in *; lia).
    rewrite Em'. apply Z.div_le_lower_bound; [lia|]. rewrite <- Z.pow_add_r by lia.
    destruct (Z.eq_dec m 0) as [-> | Nz]; [cbn [Zdigits2] in *; lia |].
    destruct (Zdigits2_ok m) as [P Q]; [lia|].
    replace (E - e + (prec - 1)) with (Zdigits2 m - 1) by lia. lia. }
  assert (Hnum : m' * D <= num < (m' + 1) * D).
  { clear - L' HD. destruct (loc_of_shr_record r') as [|c]; cbn [inloc] in L'; lia. }
  assert (Hpp : 2 ^ prec = 2 * 2 ^ (prec - 1)).
  { rewrite <- Z.pow_succ_r by lia. f_equal. lia. }
  assert (Hp1 : 0 < 2 ^ (prec - 1)) by lia.
  assert (Hn : 0 <= n <= 2 ^ prec) by lia.
  exists n, E. split.
  2:{ split; [lia|]. split; [lia|]. split; [reflexivity|]. split; [lia|]. split.
      { apply Z.lt_le_trans with ((m' + 1) * D); [lia|]. apply Z.mul_le_mono_nonneg_r; lia. }
      split; [|split; assumption].
      destruct Hlow as [-> | Hlow]; [left; reflexivity | right]. split; [| lia].
      apply Z.le_trans with (m' * D); [|lia]. apply Z.mul_le_mono_nonneg_r; lia. }
  unfold shr_fexp. cbn [shr_record_of_loc].
  clearbody n. unfold packed.
  destruct n as [|p|p]; [| | lia].
  - cbn [Zdigits2]. assert (Hle : fexp (0 + E) - E <= 0) by (unfold SpecFloat.fexp; lia).
    destruct (fexp (0 + E) - E); [| lia |]; reflexivity.
  - destruct (Z.pos p =? 2 ^ prec) eqn:E2.
    + assert (E3 : Z.pos p = 2 ^ prec) by lia. rewrite E3.
      assert (Ed : Zdigits2 (2 ^ prec) = prec + 1).
      { apply Zdigits2_unique; [lia|]. split; [lia|]. apply Z.pow_lt_mono_r; lia. }
      rewrite Ed. assert (Ef : fexp (prec + 1 + E) - E = 1) by (unfold SpecFloat.fexp; lia). rewrite Ef. cbn [shr SpecFloat.iter_pos].
      pose proof (shr_1_m {| shr_m := 2 ^ prec; shr_r := false; shr_s := false |}) as Es. cbn [shr_m] in Es.
      rewrite Es by lia. rewrite Hpp, Z.mul_comm, Z.div_mul by lia.
      destruct (2 ^ (prec - 1)) as [|q|q] eqn:E4; [lia | | lia]. cbn [Z.to_pos]. reflexivity.
    + assert (Hd2 : fexp (Zdigits2 (Z.pos p) + E) = E).
      { assert (E3 : Z.pos p < 2 ^ prec) by lia.
        destruct (Zdigits2_ok (Zpos p)) as [P Q]; [lia|].
        assert (Zdigits2 (Zpos p) <= prec) by (assert (Zdigits2 (Zpos p) - 1 < prec) by (apply (Z.pow_lt_mono_r_iff 2); lia); lia).
        destruct (Z.eq_dec E emin) as [->|Ne]; [unfold SpecFloat.fexp; lia |].
        assert (2 ^ (prec - 1) <= Zpos p) by lia.
        assert (prec - 1 < Zdigits2 (Zpos p)) by (apply (Z.pow_lt_mono_r_iff 2); lia).
        unfold SpecFloat.fexp. lia. }
      rewrite Hd2. rewrite Z.sub_diag. cbn [shr shr_m Z.to_pos]. reflexivity.
Qed.
End Round.
