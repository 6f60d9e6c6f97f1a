(* OutputSimdLanes.v: lanes of the registers of OutputSimdModel.v: shuffles,
   narrowing, and the stores *)
From Verif Require Import Base BaseLemmas PackModel ComputeModel FixedPointModel FixedPointSpec OutputModel OutputProofs UnpackModel UnpackProofs
  SimdModel SimdProofs SimdProofs2 OutputSimdModel.

(* ------------------------------------------------------------------ *)
(* bits *)
Lemma getU_bits w i v j : 1 <= w -> 0 <= i -> 0 <= j ->
  Z.testbit (getU w i v) j = (j <? w) && Z.testbit v (w * i + j).
Proof.
  intros Hw Hi Hj. unfold getU. destruct (Z.ltb_spec j w) as [L | L]; cbn [andb].
  - rewrite bits_wrapU by lia. rewrite Z.shiftr_spec by lia. f_equal. lia.
  - unfold wrapU. apply Z.mod_pow2_bits_high. lia.
Qed.
Lemma wrapU_ext w a b : 1 <= w -> (forall j, 0 <= j < w -> Z.testbit a j = Z.testbit b j) -> wrapU w a = wrapU w b.
Proof.
  intros Hw H. apply eq_bits. intros j Hj. destruct (Z.ltb_spec j w) as [L | L].
  - rewrite !bits_wrapU by lia. apply H. lia.
  - unfold wrapU. rewrite !Z.mod_pow2_bits_high by lia. reflexivity.
Qed.
Lemma getU_ext w i v z : 1 <= w -> 0 <= i -> (forall j, 0 <= j < w -> Z.testbit v (w * i + j) = Z.testbit z j) ->
  getU w i v = wrapU w z.
Proof.
  intros Hw Hi H. unfold getU. apply wrapU_ext; [exact Hw|]. intros j Hj. rewrite Z.shiftr_spec by lia.
  rewrite Z.add_comm. now apply H.
Qed.
Lemma getU_regl w l i : 1 <= w -> 0 <= i < Z.of_nat (length l) -> getU w i (regl w l) = wrapU w (nthZ l i).
Proof. intros Hw Hi. apply getU_ext; [exact Hw|lia|]. intros j Hj. unfold regl. now apply pack_n_bits. Qed.
Lemma get_regl w l i : 1 <= w -> 0 <= i < Z.of_nat (length l) -> get w i (regl w l) = wrapS w (nthZ l i).
Proof. intros Hw Hi. apply get_ext; [exact Hw|lia|]. intros j Hj. unfold regl. now apply pack_n_bits. Qed.
(* a narrow lane of a wide lane *)
Lemma getU_getU w w' k h s v : 1 <= w' -> w = w' * k -> 0 <= h < k -> 0 <= s ->
  getU w' h (getU w s v) = getU w' (k * s + h) v.
Proof.
  intros Hw' -> Hh Hs. assert (1 <= w' * k) by nia. assert (0 <= k * s) by nia.
  unfold getU at 3. apply getU_ext; [exact Hw'|lia|]. intros j Hj.
  rewrite getU_bits by (nia || assumption). rewrite Z.shiftr_spec by lia.
  assert (w' * h + j < w' * k) by nia. replace (w' * h + j <? w' * k) with true by lia. cbn [andb]. f_equal. lia.
Qed.
Lemma getU_wrapU w w' k h z : 1 <= w' -> w = w' * k -> 0 <= h < k -> getU w' h (wrapU w z) = getU w' h z.
Proof.
  intros Hw' -> Hh. unfold getU at 2. assert (1 <= w' * k) by nia. apply getU_ext; [exact Hw'|lia|]. intros j Hj.
  assert (w' * h + j < w' * k) by nia. rewrite bits_wrapU by nia. rewrite Z.shiftr_spec by lia. f_equal. lia.
Qed.
Lemma getU_get_nest w w' k h s v : 1 <= w' -> w = w' * k -> 0 <= h < k -> 0 <= s ->
  getU w' h (get w s v) = getU w' (k * s + h) v.
Proof.
  intros Hw' E Hh Hs. rewrite <- (getU_getU w w' k h s v) by assumption.
  rewrite (getU_get w s v) by nia. symmetry. now apply (getU_wrapU w w' k).
Qed.
Lemma getU_regl_nest w w' k l j : 1 <= w' -> w = w' * k -> 0 <= j < k * Z.of_nat (length l) ->
  getU w' j (regl w l) = getU w' (j mod k) (nthZ l (j / k)).
Proof.
  intros Hw' E Hj. assert (0 < k) by nia. assert (B : 0 <= j mod k < k) by (apply Z.mod_pos_bound; lia).
  assert (0 <= j / k < Z.of_nat (length l)) by (split; [apply Z.div_pos; lia|apply Z.div_lt_upper_bound; lia]).
  replace j with (k * (j / k) + j mod k) at 1 by (symmetry; apply Z.div_mod; lia).
  rewrite <- (getU_getU w w' k (j mod k) (j / k) (regl w l)) by lia.
  rewrite getU_regl by (nia || assumption). now apply (getU_wrapU w w' k).
Qed.
Lemma getU_range w i v : 0 <= w -> 0 <= getU w i v < 2 ^ w.
Proof. intros H. unfold getU, wrapU. apply Z.mod_pos_bound. apply Z.pow_pos_nonneg; lia. Qed.
Lemma wrapU_getU w i v : 0 <= w -> wrapU w (getU w i v) = getU w i v.
Proof. intros H. unfold wrapU. apply Z.mod_small. now apply getU_range. Qed.
Lemma get_getU w i v : 1 <= w -> get w i v = wrapS w (getU w i v).
Proof. intros H. unfold get, getU. symmetry. now apply wrapS_wrapU. Qed.
Lemma as_ty_wrapU t z : as_ty t (wrapU (width t) z) = as_ty t z.
Proof.
  destruct t; cbn [as_ty width]; try (apply wrapS_wrapU; lia). unfold wrapU. apply Z.mod_mod. lia.
Qed.
Lemma as_ty_shiftr t i v : width t = 8 -> 0 <= i -> as_ty t (Z.shiftr v (8 * i)) = as_ty t (getU 8 i v).
Proof. intros E Hi. unfold getU. rewrite <- E, as_ty_wrapU. reflexivity. Qed.

(* ------------------------------------------------------------------ *)
(* shuffles *)
Lemma inter_nth {A} (f g : Z -> A) d n q : 0 <= q < 2 * n ->
  nth (Z.to_nat q) (flat_map (fun i => [f i; g i]) (zrange n)) d = if Z.even q then f (q / 2) else g (q / 2).
Proof.
  intros Hq. unfold zrange.
  assert (G : forall k s q, 0 <= q < 2 * Z.of_nat k ->
    nth (Z.to_nat q) (flat_map (fun i => [f i; g i]) (map Z.of_nat (seq s k))) d =
    if Z.even q then f (Z.of_nat s + q / 2) else g (Z.of_nat s + q / 2)).
  { induction k as [|k IH]; intros s q' H; [lia|]. cbn [seq map flat_map app].
    destruct (Z.eq_dec q' 0) as [-> | N0]; [change (0 / 2) with 0; rewrite Z.add_0_r; reflexivity|].
    destruct (Z.eq_dec q' 1) as [-> | N1]; [change (1 / 2) with 0; rewrite Z.add_0_r; reflexivity|].
    replace (Z.to_nat q') with (S (S (Z.to_nat (q' - 2)))) by lia. cbn [nth]. rewrite IH by lia.
    replace (Z.even (q' - 2)) with (Z.even q') by (rewrite Z.even_sub; cbn; destruct (Z.even q'); reflexivity).
    replace (Z.of_nat (S s) + (q' - 2) / 2) with (Z.of_nat s + q' / 2) by lia. reflexivity. }
  rewrite G by lia. rewrite Z.add_0_l. reflexivity.
Qed.
Lemma inter_length {A} (f g : Z -> A) n : 0 <= n -> Z.of_nat (length (flat_map (fun i => [f i; g i]) (zrange n))) = 2 * n.
Proof.
  intros H. unfold zrange. assert (G : forall l, length (flat_map (fun i => [f i; g i]) l) = (2 * length l)%nat).
  { induction l as [|a l IH]; cbn [flat_map app length]; [reflexivity|]. rewrite IH. lia. }
  rewrite G, map_length, seq_length. lia.
Qed.
Definition src_lane (w w' : Z) (f : Z -> Z) (j : Z) : Z := let k := w / w' in k * f (j / k / 2) + j mod k.
Definition src_even (w w' j : Z) : bool := Z.even (j / (w / w')).
Definition shuf_ok (w w' n j : Z) : bool :=
  (1 <=? w') && (1 <=? w / w') && (w =? w' * (w / w')) && (0 <=? n) && (0 <=? j) && (j <? 2 * n * (w / w')).
Lemma getU_inter w w' n f a b j : shuf_ok w w' n j = true -> (forall i, 0 <= i -> 0 <= f i) ->
  getU w' j (regl w (flat_map (fun i => [getU w (f i) a; getU w (f i) b]) (zrange n))) =
  getU w' (src_lane w w' f j) (if src_even w w' j then a else b).
Proof.
  unfold shuf_ok, src_lane, src_even. set (k := w / w'). intros H Hf. cbv zeta.
  rewrite !Bool.andb_true_iff in H. destruct H as (((((H1 & H2) & H3) & H4) & H5) & H6).
  assert (E : w = w' * k) by lia. assert (0 < k) by lia.
  assert (B : 0 <= j / k < 2 * n) by (split; [apply Z.div_pos; lia|apply Z.div_lt_upper_bound; lia]).
  rewrite (getU_regl_nest w w' k) by (try rewrite inter_length by lia; lia).
  unfold nthZ. rewrite inter_nth by exact B.
  assert (0 <= f (j / k / 2)) by (apply Hf; apply Z.div_pos; lia).
  assert (0 <= j mod k < k) by (apply Z.mod_pos_bound; lia).
  destruct (Z.even (j / k)); apply (getU_getU w w' k); lia.
Qed.
Lemma getU_unpacklo w w' a b j : shuf_ok w w' (64 / w) j = true ->
  getU w' j (unpacklo w a b) = getU w' (src_lane w w' (fun i => i) j) (if src_even w w' j then a else b).
Proof. intros H. apply (getU_inter w w' (64 / w) (fun i => i)); [exact H|auto]. Qed.
Lemma getU_unpackhi w w' a b j : shuf_ok w w' (64 / w) j = true ->
  getU w' j (unpackhi w a b) = getU w' (src_lane w w' (fun i => 64 / w + i) j) (if src_even w w' j then a else b).
Proof.
  intros H. apply (getU_inter w w' (64 / w) (fun i => 64 / w + i)); [exact H|].
  unfold shuf_ok in H. lia.
Qed.
Lemma getU_vtrn0 w w' n a b j : shuf_ok w w' (n / 2) j = true ->
  getU w' j (vtrn0 w n a b) = getU w' (src_lane w w' (fun i => 2 * i) j) (if src_even w w' j then a else b).
Proof. intros H. apply (getU_inter w w' (n / 2) (fun i => 2 * i)); [exact H|lia]. Qed.
Lemma getU_vtrn1 w w' n a b j : shuf_ok w w' (n / 2) j = true ->
  getU w' j (vtrn1 w n a b) = getU w' (src_lane w w' (fun i => 2 * i + 1) j) (if src_even w w' j then a else b).
Proof. intros H. apply (getU_inter w w' (n / 2) (fun i => 2 * i + 1)); [exact H|lia]. Qed.
Definition half_ok (w' n j : Z) : bool := (1 <=? w') && (64 =? w' * (64 / w')) && (0 <=? j) && (j <? n * (64 / w')).
Lemma getU_vcombine w' a b j : half_ok w' 2 j = true ->
  getU w' j (vcombine a b) = getU w' (j mod (64 / w')) (if j <? 64 / w' then a else b).
Proof.
  unfold half_ok, vcombine. set (k := 64 / w'). intros H. rewrite !Bool.andb_true_iff in H. destruct H as (((H1 & H2) & H3) & H4).
  assert (0 < k) by nia. rewrite (getU_regl_nest 64 w' k) by (cbn [length]; lia). f_equal. unfold nthZ.
  destruct (Z.ltb_spec j k).
  - rewrite Z.div_small by lia. reflexivity.
  - replace (j / k) with 1 by (apply Z.div_unique with (j - k); lia). reflexivity.
Qed.
Lemma getU_vget_low w' a j : half_ok w' 1 j = true -> getU w' j (vget_low a) = getU w' j a.
Proof.
  unfold half_ok, vget_low. set (k := 64 / w'). intros H. rewrite !Bool.andb_true_iff in H. destruct H as (((H1 & H2) & H3) & H4).
  rewrite (getU_getU 64 w' k) by lia. f_equal. lia.
Qed.
Lemma getU_vget_high w' a j : half_ok w' 1 j = true -> getU w' j (vget_high a) = getU w' (64 / w' + j) a.
Proof.
  unfold half_ok, vget_high. set (k := 64 / w'). intros H. rewrite !Bool.andb_true_iff in H. destruct H as (((H1 & H2) & H3) & H4).
  rewrite (getU_getU 64 w' k) by lia. f_equal. lia.
Qed.

(* the lane a shuffled register takes its lane j from, for concrete j *)
Ltac norm_lane L := let L' := eval vm_compute in L in change L with L'.
Ltac lane_step :=
  match goal with
  | |- context [getU ?w' ?j (unpacklo ?w ?a ?b)] =>
      rewrite (getU_unpacklo w w' a b j eq_refl); norm_lane (src_lane w w' (fun i => i) j); norm_lane (src_even w w' j); cbv iota
  | |- context [getU ?w' ?j (unpackhi ?w ?a ?b)] =>
      rewrite (getU_unpackhi w w' a b j eq_refl); norm_lane (src_lane w w' (fun i => 64 / w + i) j); norm_lane (src_even w w' j); cbv iota
  | |- context [getU ?w' ?j (vtrn0 ?w ?n ?a ?b)] =>
      rewrite (getU_vtrn0 w w' n a b j eq_refl); norm_lane (src_lane w w' (fun i => 2 * i) j); norm_lane (src_even w w' j); cbv iota
  | |- context [getU ?w' ?j (vtrn1 ?w ?n ?a ?b)] =>
      rewrite (getU_vtrn1 w w' n a b j eq_refl); norm_lane (src_lane w w' (fun i => 2 * i + 1) j); norm_lane (src_even w w' j); cbv iota
  | |- context [getU ?w' ?j (vcombine ?a ?b)] =>
      rewrite (getU_vcombine w' a b j eq_refl); norm_lane (j mod (64 / w')); norm_lane (j <? 64 / w'); cbv iota
  | |- context [getU 8 ?j (get 32 ?s ?v)] =>
      rewrite (getU_get_nest 32 8 4 j s v) by lia; norm_lane (4 * s + j)
  | |- context [getU ?w' ?j (vget_low ?a)] => rewrite (getU_vget_low w' a j eq_refl)
  | |- context [getU ?w' ?j (vget_high ?a)] => rewrite (getU_vget_high w' a j eq_refl); norm_lane (64 / w' + j)
  end.

(* ------------------------------------------------------------------ *)
(* entries of a block *)
Definition entry (T : simd) (b : sblock) (i j : Z) : Z :=
  let n := lanes_of T (s_ty b) (s_count b) in
  let p := i + s_rows b * j in
  if n =? 1 then sreg b p else as_ty (s_ty b) (getU (width (s_ty b)) (p mod n) (sreg b (p / n))).

Definition visits_ok (R C : Z) (vis : list (Z * Z)) : bool :=
  forallb (fun q => (0 <=? fst q) && (fst q <? R) && (0 <=? snd q) && (snd q <? C)) vis &&
  forallb (fun r => forallb (fun c => existsb (fun q => (fst q =? r) && (snd q =? c)) vis) (zrange C)) (zrange R) &&
  (fix nd l := match l with [] => true | q :: t => negb (existsb (fun u => (fst u =? fst q) && (snd u =? snd q)) t) && nd t end) vis.
Lemma visits_covers R C vis (f : Z -> Z -> Z * Z) : visits_ok R C vis = true ->
  covers f (in_rect 0 R 0 C) (map (fun q => f (fst q) (snd q)) vis).
Proof.
  unfold visits_ok. rewrite !Bool.andb_true_iff. intros ((H1 & H2) & H3). exists vis. split; [|split].
  - reflexivity.
  - clear H1 H2. induction vis as [|q t IH]; [constructor|]. rewrite Bool.andb_true_iff in H3. destruct H3 as (N & H3).
    constructor; [|now apply IH]. intros Hin. rewrite Bool.negb_true_iff in N.
    assert (X : existsb (fun u => (fst u =? fst q) && (snd u =? snd q)) t = true).
    { apply existsb_exists. exists q. split; [exact Hin|]. lia. }
    congruence.
  - intros r c. split.
    + intros Hin. rewrite forallb_forall in H1. specialize (H1 _ Hin). cbn [fst snd] in H1. unfold in_rect. lia.
    + intros (Hr & Hc). rewrite forallb_forall in H2. specialize (H2 r ltac:(apply zrange_In; lia)).
      rewrite forallb_forall in H2. specialize (H2 c ltac:(apply zrange_In; lia)).
      apply existsb_exists in H2. destruct H2 as ([r' c'] & Hin & E). cbn [fst snd] in E.
      replace (r, c) with (r', c') by (f_equal; lia). exact Hin.
Qed.
