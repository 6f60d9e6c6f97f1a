(* OutputSimdProps.v: the statements of Props_OutputSimd.v *)
From Verif Require Import Base BaseLemmas FixedPointModel FixedPointSpec CommonModel PackModel GemmSpec ComputeModel OutputModel OutputSpec
  OutputProofs UnpackModel UnpackProofs SimdModel OutputSimdModel OutputSimdSpec OutputSimdLanes OutputSimdStages OutputSimdUnpack
  GemmModel GemmContract PackProofs4 GemmProofs GemmProofs4 UnpackSpec.

Lemma unpack_at_value m zl zr depth a sl sr lo ro :
  fits 32 a -> fits 32 sl -> fits 32 sr -> fits 32 lo -> fits 32 ro ->
  m = Wrap \/ unpack_fits zl zr depth a sl sr lo ro ->
  unpack_at m zl zr depth a sl sr lo ro = Some (wrapS 32 (unpacked zl zr depth a sl sr lo ro)).
Proof.
  intros Fa Fsl Fsr Flo Fro [->|(F1 & F2 & F3 & F4 & F5 & F6 & F7 & F8)].
  - assert (Ea : forall k x, exists y, addc Wrap k x = Some y /\ cong y (x + k)).
    { intros k x. unfold addc. destruct (k =? 0) eqn:E.
      - exists x. split; [reflexivity|]. replace (x + k) with x by lia. apply cong_refl.
      - eexists. split; [reflexivity|]. apply cong_wrap, cong_refl. }
    unfold unpack_at. destruct (Ea zl lo) as (lo' & -> & Hlo). destruct (Ea zr ro) as (ro' & -> & Hro). cbn [bind].
    unfold MulAdd. cbn [norm bind]. f_equal. apply cong_eq. unfold unpacked.
    apply cong_add; [apply cong_wrap, cong_add; [apply cong_refl|apply cong_wrap, cong_mul; [apply cong_refl|exact Hro]]|].
    apply cong_wrap, cong_mul; [|exact Hlo]. apply cong_wrap, cong_add; [apply cong_refl|]. apply cong_wrap, cong_mul; [exact Hro|apply cong_refl].
  - unfold unpack_at, unpacked in *. rewrite !addc_fits by assumption. cbn [bind].
    assert (MA : forall x y z, fits 32 (x * y) -> fits 32 (z + x * y) -> MulAdd m x y z = Some (z + x * y)).
    { intros x y z G1 G2. unfold MulAdd. rewrite norm_fits by (exact G1 || lia). cbn [bind]. apply norm_fits; [lia|exact G2]. }
    rewrite MA by assumption. cbn [bind]. rewrite (norm_fits m 32 ((ro + zr) * depth)) by (assumption || discriminate). cbn [bind].
    rewrite (norm_fits m 32 (sr + (ro + zr) * depth)) by (assumption || discriminate). cbn [bind].
    rewrite MA by assumption. rewrite wrapS_small by (assumption || discriminate). reflexivity.
Qed.

Lemma covers_block M b out log :
  covers (ent out M) (in_rect (bb_row b) (bb_row b + bb_rows b) (bb_col b) (bb_col b + bb_cols b)) log -> block_stores_once M b out log.
Proof.
  intros (vis & E & N & HI). exists vis. split; [|split; [exact N|]].
  - rewrite E. apply map_ext. intros [r c]. cbn. unfold ent. rewrite mm_addr_entry. reflexivity.
  - intros r c. rewrite HI. unfold in_rect, in_block. tauto.
Qed.
Lemma block_once_stored M b out log before : block_inside b M -> valid_view before M -> block_stores_once M b out log ->
  exists after, perform log before = Some after /\ block_stored before after M b out.
Proof.
  intros (B1 & B2 & B3 & B4 & B5 & B6) (Hal & Hs) (vis & E & N & HI).
  assert (HI' : forall q, In q vis -> 0 <= fst q < mm_rows M /\ 0 <= snd q < mm_cols M).
  { intros [r c] Hin. apply HI in Hin as (? & ?). cbn. lia. }
  destruct (perform_spec log before) as (after & Ea & H1 & H2).
  - intros a v Hin. rewrite E in Hin. apply in_map_iff in Hin as (q & Eq & Hin). injection Eq as <- <-.
    apply HI' in Hin. apply Hal; tauto.
  - rewrite E, map_map. cbn [fst]. clear E HI. induction vis as [|q t IH]; [constructor|]. cbn [map]. inversion N as [|? ? Hq Ht]; subst.
    constructor.
    + intros Hin. apply in_map_iff in Hin as (q' & Eq & Hin'). apply Hq.
      destruct (HI' q (or_introl eq_refl)) as [A1 A2]. destruct (HI' q' (or_intror Hin')) as [C1 C2].
      destruct (entry_addr_inj M (fst q') (snd q') (fst q) (snd q) Hs C1 C2 A1 A2 Eq) as [E1 E2].
      replace q with q' by (destruct q, q'; cbn in *; congruence). exact Hin'.
    + apply IH; [exact Ht|]. intros; apply HI'; right; assumption.
  - exists after. split; [exact Ea|]. split.
    + intros r c Hrc. apply H1. rewrite E. apply in_map_iff. exists (r, c). split; [reflexivity|]. now apply HI.
    + intros a Ha. apply H2. rewrite E, map_map. intros Hin. apply in_map_iff in Hin as ([r c] & <- & Hin). apply HI in Hin.
      now apply (Ha r c).
Qed.

Lemma as_ty_in t x : as_ty t x = x -> in_ty t x.
Proof.
  destruct t; cbn [as_ty in_ty width]; intros E; rewrite <- E; [apply (wrapS_range 32)|apply (wrapS_range 16)| |apply (wrapS_range 8)]; try lia.
  unfold wrapU. change (2 ^ 8) with 256. pose proof (Z.mod_pos_bound x 256). lia.
Qed.

Theorem unpack_simd_full :
  forall T m k t junk dst blk src src_map depth lsm rsm lo ro p A SL SR LO RO out before,
  let P r c := unpacked (sf_zp (kf_lhs k)) (sf_zp (kf_rhs k)) depth (A r c) (SL r) (SR c) (LO r) (RO c) in
  block_inside blk dst -> valid_view before dst ->
  unpack_inputs blk src src_map lsm rsm lo ro A SL SR LO RO ->
  pipe_ty T p = Some t ->
  (forall r c, 0 <= r < bb_rows blk -> 0 <= c < bb_cols blk ->
     (m = Wrap \/ unpack_fits (sf_zp (kf_lhs k)) (sf_zp (kf_rhs k)) depth (A r c) (SL r) (SR c) (LO r) (RO c)) /\
     pipe_at m p (bb_row blk + r) (bb_col blk + c) (wrapS 32 (P r c)) = Some (out (bb_row blk + r) (bb_col blk + c)) /\
     pipe_safe T m p (bb_row blk + r) (bb_col blk + c) (wrapS 32 (P r c))) ->
  (forall r c, in_block blk r c -> in_ty t (out r c)) /\
  exists log log' after after',
    UnpackResultV T m k t junk dst blk src src_map depth lsm rsm lo ro p = Some log /\
    UnpackResult m k junk dst blk src src_map depth lsm rsm lo ro p = Some log' /\
    block_stores_once dst blk out log /\ block_stores_once dst blk out log' /\
    perform log before = Some after /\ block_stored before after dst blk out /\
    perform log' before = Some after' /\ block_stored before after' dst blk out.
Proof.
  intros T m k t junk dst blk src src_map depth lsm rsm lo ro p A SL SR LO RO out before P HB HV (I1 & I2 & I3 & I4 & I5 & I6) Hty HU.
  pose proof HB as (B1 & B2 & B3 & B4 & B5 & B6).
  assert (HA : forall r c, 0 <= r < bb_rows blk -> 0 <= c < bb_cols blk -> src (mm_addr src_map r c) = Some (A r c) /\ fits 32 (A r c)).
  { intros r c Hr Hc. rewrite mm_addr_entry. now apply I4. }
  assert (HU' : forall r c, 0 <= r < bb_rows blk -> 0 <= c < bb_cols blk ->
     exists a, unpack_at m (sf_zp (kf_lhs k)) (sf_zp (kf_rhs k)) depth (A r c) (SL r) (SR c) (LO r) (RO c) = Some a /\
       pipe_at m p (bb_row blk + r) (bb_col blk + c) a = Some (out (bb_row blk + r) (bb_col blk + c)) /\
       pipe_safe T m p (bb_row blk + r) (bb_col blk + c) a).
  { intros r c Hr Hc. destruct (HU r c Hr Hc) as (U1 & U2 & U3). exists (wrapS 32 (P r c)). split; [|auto].
    destruct (I4 r c Hr Hc) as (_ & ?). destruct (I5 r Hr) as (_ & ? & _ & ?). destruct (I6 c Hc) as (_ & ? & _ & ?).
    now apply unpack_at_value. }
  split.
  { intros r c (Hr & Hc). destruct (HU (r - bb_row blk) (c - bb_col blk) ltac:(lia) ltac:(lia)) as (_ & U2 & U3).
    replace (bb_row blk + (r - bb_row blk)) with r in * by lia. replace (bb_col blk + (c - bb_col blk)) with c in * by lia.
    apply as_ty_in. apply (pipe_fits T m t r c p _ _ Hty) with (2 := U3) (3 := U2). apply wrapS_range. lia. }
  destruct (UnpackResultV_spec T m k t junk dst blk src src_map depth lsm rsm lo ro p A SL SR LO RO out
    B1 B2 B3 B4 B5 B6 I1 HA I2 I3) as (log & E & CV); try assumption.
  { intros r Hr. destruct (I5 r Hr) as (? & ? & _). auto. }
  { intros c Hc. destruct (I6 c Hc) as (? & ? & _). auto. }
  { intros r Hr. destruct (I5 r Hr) as (_ & _ & ? & ?). auto. }
  { intros c Hc. destruct (I6 c Hc) as (_ & _ & ? & ?). auto. }
  destruct (UnpackResult_spec m k junk dst blk src src_map depth lsm rsm lo ro p A SL SR LO RO out
    B1 B2 B3 B4 B5 B6 I1) as (log' & E' & CV'); try assumption.
  { intros r c Hr Hc. now apply HA. }
  { intros r Hr. now apply I5. }
  { intros c Hc. now apply I6. }
  { intros r Hr. now apply I5. }
  { intros c Hc. now apply I6. }
  { intros r c Hr Hc. destruct (HU' r c Hr Hc) as (a & ? & ? & _). exists a. auto. }
  apply covers_block in CV, CV'.
  destruct (block_once_stored _ _ _ _ before HB HV CV) as (after & Ea & Sa).
  destruct (block_once_stored _ _ _ _ before HB HV CV') as (after' & Ea' & Sa').
  exists log, log', after, after'. auto 10.
Qed.

(* swr and swl *)
Lemma byte_of v i : 0 <= i -> getU 8 i v = v / 2 ^ (8 * i) mod 256.
Proof. intros H. unfold getU, wrapU. now rewrite Z.shiftr_div_pow2 by lia. Qed.
Lemma perform_bytes a v l : (forall w, In w l -> a <= fst w < a + 4 /\ snd w = getU 8 (fst w - a) v) ->
  forall before, (forall i, 0 <= i < 4 -> exists x, before (a + i) = Some x) ->
  exists after, perform l before = Some after /\
    forall x, after x = if existsb (fun w => fst w =? x) l then Some (getU 8 (x - a) v) else before x.
Proof.
  induction l as [|[y b] l IH]; intros Hl before H.
  - exists before. split; reflexivity.
  - destruct (Hl (y, b) (or_introl eq_refl)) as [Hy Hb]. cbn [fst snd] in Hy, Hb.
    destruct (H (y - a) ltac:(lia)) as (x0 & E0). replace (a + (y - a)) with y in E0 by lia.
    destruct (IH (fun w Hw => Hl w (or_intror Hw)) (upd before y b)) as (after & E & V).
    { intros i Hi. unfold upd. destruct (Z.eqb_spec (a + i) y); [eauto|now apply H]. }
    exists after. cbn [perform]. unfold wr. rewrite E0. cbn [bind]. split; [exact E|].
    intros x. rewrite V. cbn [existsb fst]. unfold upd. rewrite (Z.eqb_sym y x).
    destruct (existsb _ l); [now rewrite orb_true_r|]. rewrite orb_false_r.
    destruct (Z.eqb_spec x y) as [->|]; [now rewrite Hb|reflexivity].
Qed.
Lemma swr_swl_in a v w : In w (swr a v ++ swl (a + 3) v) -> a <= fst w < a + 4 /\ snd w = getU 8 (fst w - a) v.
Proof.
  unfold swr, swl. intros H. apply in_app_or in H. destruct H as [H|H]; apply in_map_iff in H; destruct H as (i & <- & Hi); apply zrange_In in Hi; cbn [fst snd].
  - assert (0 <= a mod 4) by lia. split; [lia|]. f_equal. lia.
  - assert (0 <= (a + 3) mod 4 < 4) by lia. split; [lia|]. f_equal. lia.
Qed.
Lemma swr_swl_covers a v x : a <= x < a + 4 -> exists w, In w (swr a v ++ swl (a + 3) v) /\ fst w = x.
Proof.
  intros H. unfold swr, swl. destruct (Z_lt_le_dec (x - a) (4 - a mod 4)) as [L|L].
  - exists (a + (x - a), getU 8 (x - a) v). split; [|cbn [fst]; lia]. apply in_or_app. left. apply in_map_iff. exists (x - a).
    split; [reflexivity|]. apply zrange_In. lia.
  - set (b := a + 3). exists (b - b mod 4 + (x - (b - b mod 4)), getU 8 (3 - b mod 4 + (x - (b - b mod 4))) v). split; [|cbn [fst]; lia].
    apply in_or_app. right. apply in_map_iff. exists (x - (b - b mod 4)). split; [reflexivity|]. apply zrange_In. subst b. lia.
Qed.
Lemma swr_swl_word a v before : (forall i, 0 <= i < 4 -> exists x, before (a + i) = Some x) ->
  exists after, perform (swr a v ++ swl (a + 3) v) before = Some after /\
    forall x, after x = if (a <=? x) && (x <? a + 4) then Some (v / 2 ^ (8 * (x - a)) mod 256) else before x.
Proof.
  intros H. destruct (perform_bytes a v _ (swr_swl_in a v) before H) as (after & E & V). exists after. split; [exact E|].
  intros x. rewrite V. destruct ((a <=? x) && (x <? a + 4)) eqn:Hx.
  - destruct (swr_swl_covers a v x ltac:(lia)) as (w & Hw & Ew).
    rewrite (proj2 (existsb_exists _ _)) by (exists w; split; [exact Hw|lia]). rewrite byte_of by lia. reflexivity.
  - destruct (existsb _ _) eqn:Ex; [|reflexivity]. apply existsb_exists in Ex. destruct Ex as (w & Hw & Ew).
    apply swr_swl_in in Hw. lia.
Qed.
