(* MetaProofs.v: packing and multiplication of the Meta GEMM (MetaModel.v). *)
From Coq Require Import FinFun.
From Verif Require Import Base BaseLemmas OutputModel EightBitModel MetaModel MetaSpec.

Lemma frame_refl sc lo hi : frame sc sc lo hi.
Proof. split; auto. Qed.
Lemma frame_trans a b c lo hi : frame a b lo hi -> frame b c lo hi -> frame a c lo hi.
Proof.
  intros [F1 G1] [F2 G2]. split; [|auto]. intros x Hx. rewrite F2, F1 by exact Hx. reflexivity.
Qed.
Lemma frame_sub a b lo hi lo' hi' : frame a b lo hi -> lo' <= lo -> hi <= hi' -> frame a b lo' hi'.
Proof. intros [F G] H1 H2. split; [|exact G]. intros x Hx. apply F. lia. Qed.
Lemma frame_alloc a b lo hi x y : frame a b lo hi -> alloc a x y -> alloc b x y.
Proof. intros [_ G] H z Hz. apply G, H, Hz. Qed.
Lemma alloc_sub a x y x' y' : alloc a x y -> x <= x' -> y' <= y -> alloc a x' y'.
Proof. intros H H1 H2 z Hz. apply H. lia. Qed.

Lemma wr_some m a v : m a <> None -> wr m a v = Some (upd m a v).
Proof. unfold wr. destruct (m a); [reflexivity|contradiction]. Qed.
Lemma upd_frame m a v lo hi : m a <> None -> lo <= a < hi -> frame m (upd m a v) lo hi.
Proof.
  intros H1 H2. split; intros x Hx.
  - apply upd_other. lia.
  - unfold upd. destruct (x =? a); [discriminate|exact Hx].
Qed.

(* ------------------------------------------------------------------ *)
(* 32-bit words *)
Lemma four_bytes v : byte_of v 0 + 256 * byte_of v 1 + 65536 * byte_of v 2 + 16777216 * byte_of v 3 = v mod 2 ^ 32.
Proof.
  unfold byte_of. change (2 ^ (8 * 0)) with 1. change (2 ^ (8 * 1)) with 256. change (2 ^ (8 * 2)) with (256 * 256).
  change (2 ^ (8 * 3)) with (256 * 256 * 256). change (2 ^ 32) with (256 * (256 * (256 * 256))).
  rewrite Z.div_1_r, !Z.rem_mul_r by lia. rewrite !Z.div_div by lia. change (256 * (256 * 256)) with (256 * 256 * 256). lia.
Qed.
Lemma wr32_ok sc a v : alloc sc a (a + 4) ->
  exists sc', wr32 sc a v = Some sc' /\ frame sc sc' a (a + 4) /\ forall i, 0 <= i < 4 -> sc' (a + i) = Some (byte_of v i).
Proof.
  intros H. unfold wr32.
  destruct (for_step_inv1 (fun i s => frame sc s a (a + 4) /\ forall j, 0 <= j < i -> s (a + j) = Some (byte_of v j))
     0 4 (fun i m => wr m (a + i) (byte_of v i)) sc) as [s' [E [F G]]]; [lia|split; [apply frame_refl|intros; lia]| |].
  - intros i s Hi [F G]. assert (N : s (a + i) <> None) by (apply F, H; lia).
    exists (upd s (a + i) (byte_of v i)). split; [apply wr_some, N|]. split.
    + eapply frame_trans; [exact F|]. apply upd_frame; [exact N|lia].
    + intros j Hj. destruct (Z.eq_dec j i) as [->|Hne]; [apply upd_same|]. rewrite upd_other by lia. apply G. lia.
  - exists s'. auto.
Qed.
Lemma rd32_ok sc a v : (forall i, 0 <= i < 4 -> sc (a + i) = Some (byte_of v i)) -> rd32 sc a = Some (wrapS 32 v).
Proof.
  intros H. unfold rd32, rd. pose proof (H 0 ltac:(lia)) as E0. rewrite Z.add_0_r in E0.
  rewrite E0. cbn [bind]. rewrite (H 1), (H 2), (H 3) by lia. cbn [bind]. f_equal.
  rewrite four_bytes. apply wrapS_eq_mod; [lia|]. apply Z.mod_mod. lia.
Qed.
Lemma rd32_frame sc sc' a lo hi : frame sc sc' lo hi -> a + 4 <= lo \/ hi <= a -> rd32 sc' a = rd32 sc a.
Proof. intros [F _] H. unfold rd32, rd. rewrite !F by lia. reflexivity. Qed.

(* ------------------------------------------------------------------ *)
(* packing *)
(* byte d of lane l, 0 beyond the end *)
Definition lane_byte (f : Z -> Z -> Z) (count l d : Z) : Z := if d <? count then f l d else 0.

Lemma pack_lane_ok input cnt src dst l sc acc (x : Z -> Z) :
  alloc sc dst (dst + 8) ->
  (forall j, 0 <= j < 8 -> (if j <? cnt then rd input (src + j) else Some 0) = Some (x j)) ->
  exists sc' acc', pack_lane input cnt src dst l (sc, acc) = Some (sc', acc') /\ frame sc sc' dst (dst + 8) /\
    (forall j, 0 <= j < 8 -> sc' (dst + j) = Some (x j)) /\
    (forall j, 0 <= j < 8 -> acc' l j = wrapU 16 (acc l j + x j)) /\
    (forall l' j, l' <> l -> acc' l' j = acc l' j).
Proof.
  intros Ha Hx. unfold pack_lane.
  destruct (for_step_inv1 (fun i (s : mem * lanes_acc) => frame sc (fst s) dst (dst + 8) /\
     (forall j, 0 <= j < i -> fst s (dst + j) = Some (x j)) /\
     (forall j, 0 <= j < i -> snd s l j = wrapU 16 (acc l j + x j)) /\
     (forall l' j, l' <> l \/ j >= i -> snd s l' j = acc l' j))
     0 8 (fun j '(sc, acc) =>
    let* x := if j <? cnt then rd input (src + j) else Some 0 in
    let* sc' := wr sc (dst + j) x in
    Some (sc', fun l' j' => if (l' =? l) && (j' =? j) then wrapU 16 (acc l' j' + x) else acc l' j')) (sc, acc))
    as [[s' a'] [E [F [G1 [G2 G3]]]]].
  - lia.
  - cbn [fst snd]. split; [apply frame_refl|]. split; [intros; lia|]. split; [intros; lia|]. reflexivity.
  - intros i [s a] Hi [F [G1 [G2 G3]]]. cbn [fst snd] in *. rewrite Hx by lia. cbn [bind].
    assert (N : s (dst + i) <> None) by (apply F, Ha; lia). rewrite (wr_some _ _ _ N). cbn [bind].
    eexists. split; [reflexivity|]. cbn [fst snd]. split.
    { eapply frame_trans; [exact F|]. apply upd_frame; [exact N|lia]. }
    split. { intros j Hj. destruct (Z.eq_dec j i) as [->|Hne]; [apply upd_same|]. rewrite upd_other by lia. apply G1. lia. }
    split.
    + intros j Hj. rewrite Z.eqb_refl. cbn [andb]. destruct (Z.eqb_spec j i) as [->|Hne].
      * rewrite G3 by lia. reflexivity.
      * apply G2. lia.
    + intros l' j Hlj. destruct (Z.eqb_spec l' l), (Z.eqb_spec j i); cbn [andb]; try (apply G3; lia). exfalso. lia.
  - exists s', a'. cbn [fst snd] in *. split; [exact E|]. split; [exact F|]. split; [exact G1|]. split; [exact G2|]. intros l' j Hl. apply G3. auto.
Qed.

Lemma pack_block_ok input lanes stride cnt src dst sc acc (x : Z -> Z -> Z) :
  0 <= lanes -> alloc sc dst (dst + 8 * lanes) ->
  (forall l j, 0 <= l < lanes -> 0 <= j < 8 -> (if j <? cnt then rd input (src + l * stride + j) else Some 0) = Some (x l j)) ->
  exists sc' acc', pack_block input lanes stride cnt src dst (sc, acc) = Some (sc', acc') /\
    frame sc sc' dst (dst + 8 * lanes) /\
    (forall l j, 0 <= l < lanes -> 0 <= j < 8 -> sc' (dst + 8 * l + j) = Some (x l j)) /\
    (forall l j, 0 <= l < lanes -> 0 <= j < 8 -> acc' l j = wrapU 16 (acc l j + x l j)).
Proof.
  intros Hl Ha Hx. unfold pack_block.
  destruct (for_step_inv1 (fun i (s : mem * lanes_acc) => frame sc (fst s) dst (dst + 8 * lanes) /\
     (forall l j, 0 <= l < i -> 0 <= j < 8 -> fst s (dst + 8 * l + j) = Some (x l j)) /\
     (forall l j, 0 <= l < i -> 0 <= j < 8 -> snd s l j = wrapU 16 (acc l j + x l j)) /\
     (forall l j, l >= i -> snd s l j = acc l j))
     0 lanes (fun l => pack_lane input cnt (src + l * stride) (dst + 8 * l) l) (sc, acc))
    as [[s' a'] [E [F [G1 [G2 G3]]]]].
  - exact Hl.
  - cbn [fst snd]. split; [apply frame_refl|]. split; [intros; lia|]. split; [intros; lia|]. reflexivity.
  - intros i [s a] Hi [F [G1 [G2 G3]]]. cbn [fst snd] in *.
    destruct (pack_lane_ok input cnt (src + i * stride) (dst + 8 * i) i s a (x i)) as (s1 & a1 & E1 & F1 & H1 & H2 & H3).
    + eapply alloc_sub; [eapply frame_alloc; [exact F|exact Ha]|lia|lia].
    + intros j Hj. rewrite <- (Hx i j) by lia. reflexivity.
    + exists (s1, a1). split; [exact E1|]. cbn [fst snd]. split.
      { eapply frame_trans; [exact F|]. eapply frame_sub; [exact F1|lia|lia]. }
      split.
      { intros l j Hlj Hj. destruct (Z.eq_dec l i) as [->|Hne]; [apply H1, Hj|].
        rewrite (proj1 F1) by lia. apply G1; lia. }
      split.
      { intros l j Hlj Hj. destruct (Z.eq_dec l i) as [->|Hne].
        - rewrite H2 by exact Hj. rewrite G3 by lia. reflexivity.
        - rewrite H3 by exact Hne. apply G2; lia. }
      intros l j Hlj. rewrite H3 by lia. apply G3. lia.
  - exists s', a'. cbn [fst snd] in *. repeat split; auto; try apply F.
Qed.

(* sums over eight accumulators of block sums *)
Lemma sum_blocks (h : Z -> Z) B : 0 <= B ->
  sumZ (fun j => sumZ (fun b => h (8 * b + j)) 0 B) 0 8 = sumZ h 0 (8 * B).
Proof.
  intros HB. pattern B. apply natlike_ind; [| |exact HB].
  - rewrite (sumZ_zero _ 0 8); [reflexivity|]. intros. apply sumZ_empty. lia.
  - intros b Hb IH. rewrite (sumZ_ext _ (fun j => sumZ (fun b => h (8 * b + j)) 0 b + h (j + 8 * b))).
    2:{ intros j Hj. unfold Z.succ. rewrite sumZ_last by lia. do 2 f_equal. lia. }
    rewrite sumZ_add, IH. rewrite (sumZ_split h 0 (8 * b) (8 * Z.succ b)) by lia. f_equal.
    replace (8 * Z.succ b) with (8 + 8 * b) by lia. rewrite <- (sumZ_shift h 0 8 (8 * b)). f_equal; lia.
Qed.
Lemma sum_lane f count B l : 0 <= count <= 8 * B -> sumZ (lane_byte f count l) 0 (8 * B) = sumZ (f l) 0 count.
Proof.
  intros H. rewrite (sumZ_split _ 0 count (8 * B)) by lia. rewrite (sumZ_zero _ count (8 * B)).
  - rewrite Z.add_0_r. apply sumZ_ext. intros i Hi. unfold lane_byte. destruct (Z.ltb_spec i count); lia.
  - intros i Hi. unfold lane_byte. destruct (Z.ltb_spec i count); lia.
Qed.

Definition blocks_of (count : Z) : Z := (count + 7) / 8.
Lemma kernel_blocks_eq count : 1 <= count -> kernel_blocks count = blocks_of count.
Proof. intros H. unfold kernel_blocks, blocks_of. lia. Qed.
Lemma AlignTo_div a v : 0 < a -> 0 <= v -> AlignTo a v = (v + a - 1) / a * a.
Proof. intros H1 H2. unfold AlignTo. rewrite Z.quot_div_nonneg by lia. reflexivity. Qed.
Lemma PackedStride_eq lanes s : 0 <= lanes -> 1 <= st_count s ->
  PackedStride lanes 8 s = 32 + (8 * lanes * blocks_of (st_count s) + 31) / 32 * 32.
Proof.
  intros H1 H2. unfold PackedStride, blocks_of. rewrite (AlignTo_div 8) by lia.
  rewrite AlignTo_div by (try lia; apply Z.mul_nonneg_nonneg; lia).
  do 3 f_equal. replace (st_count s + 8 - 1) with (st_count s + 7) by lia. lia.
Qed.

(* the layout of a packed chunk *)
Definition packed (sc : mem) (dst lanes : Z) (s : stream) (f : Z -> Z -> Z) : Prop :=
  (forall l b j, 0 <= l < lanes -> 0 <= b < blocks_of (st_count s) -> 0 <= j < 8 ->
     sc (dst + 8 * (lanes * b + l) + j) = Some (lane_byte f (st_count s) l (8 * b + j))) /\
  (forall l, 0 <= l < lanes -> rd32 sc (dst + 8 * lanes * blocks_of (st_count s) + 4 * l)
     = Some (wrapS 32 (sumZ (f l) 0 (st_count s) * st_mult s + st_add s))).
Lemma packed_frame sc sc' lo hi dst lanes s f : 1 <= st_count s -> packed sc dst lanes s f -> frame sc sc' lo hi ->
  dst + PackedStride lanes 8 s <= lo \/ hi <= dst -> lanes <= 8 -> packed sc' dst lanes s f.
Proof.
  intros Hc [P1 P2] F D H8. assert (HB : 1 <= blocks_of (st_count s)) by (unfold blocks_of; lia). split.
  - intros l b j Hl Hb Hj. rewrite <- (P1 l b j Hl Hb Hj). apply F. intros C.
    rewrite PackedStride_eq in D by lia.
    assert (lanes * b + lanes <= lanes * blocks_of (st_count s)) by nia. assert (0 <= lanes * b) by nia. lia.
  - intros l Hl. rewrite <- (P2 l Hl). eapply rd32_frame; [exact F|].
    rewrite PackedStride_eq in D by lia. assert (0 <= lanes * blocks_of (st_count s)) by nia. lia.
Qed.

Lemma StreamPack_ok lanes s input src dst sc f :
  0 <= lanes <= 8 -> 1 <= st_count s <= 2056 ->
  (forall l d, 0 <= l < lanes -> 0 <= d < st_count s -> input (src + l * st_stride s + d) = Some (f l d) /\ 0 <= f l d <= 255) ->
  (0 < lanes -> alloc sc dst (dst + PackedStride lanes 8 s)) ->
  exists sc', StreamPack lanes (st_count s mod 8) s input src dst sc = Some sc' /\
    frame sc sc' dst (dst + (if lanes =? 0 then 0 else PackedStride lanes 8 s)) /\ packed sc' dst lanes s f.
Proof.
  intros Hl Hc Hin Ha. unfold StreamPack. destruct (Z.eqb_spec lanes 0) as [->|Hne].
  { exists sc. split; [reflexivity|]. split; [apply frame_refl|]. split; intros; lia. }
  specialize (Ha ltac:(lia)). set (c := st_count s) in *. set (lo := c mod 8).
  assert (Hlo : 0 <= lo < 8) by (unfold lo; lia).
  assert (C1 : (1 <=? lanes) && (lanes <=? 8) && (0 <=? lo) && (lo <? 8) = true) by lia.
  assert (C2 : (1 <=? c) && (lo <=? c) && ((c - lo) mod 8 =? 0) = true) by (unfold lo; lia).
  rewrite C1, C2. cbn [guard bind]. set (B := (c - lo) / 8). assert (HB : 8 * B = c - lo /\ 0 <= B) by (unfold B, lo; lia).
  set (x := fun l b j => lane_byte f c l (8 * b + j)).
  assert (Hx : forall l b j, 0 <= l < lanes -> 0 <= b -> 0 <= j < 8 -> 0 <= x l b j <= 255).
  { intros l b j H1 H2 H3. unfold x, lane_byte. destruct (Z.ltb_spec (8 * b + j) c); [|lia].
    apply (Hin l (8 * b + j)); lia. }
  assert (HS : 8 * (lanes * blocks_of c) + 32 <= PackedStride lanes 8 s).
  { rewrite PackedStride_eq by (fold c; lia). fold c. replace (8 * lanes * blocks_of c) with (8 * (lanes * blocks_of c)) by ring.
    generalize (lanes * blocks_of c). clear. intros z. lia. }
  clear C1 C2.
  assert (HBB : blocks_of c = B + (if lo =? 0 then 0 else 1)).
  { unfold blocks_of. destruct (Z.eqb_spec lo 0); lia. }
  assert (Hbb : B <= blocks_of c /\ blocks_of c <= 257) by (rewrite HBB; destruct (lo =? 0); unfold blocks_of in HBB; lia).
  clearbody lo B. set (PS := PackedStride lanes 8 s) in *. clearbody PS.
  assert (HT : forall b, 0 <= b <= blocks_of c -> 0 <= lanes * b <= lanes * blocks_of c) by (intros; nia).
  assert (HT1 : forall b, 0 <= b -> lanes * (b + 1) = lanes * b + lanes) by (intros; lia).
  set (I := fun b (q : mem * lanes_acc) => frame sc (fst q) dst (dst + PS) /\
     (forall l b' j, 0 <= l < lanes -> 0 <= b' < b -> 0 <= j < 8 -> fst q (dst + 8 * (lanes * b' + l) + j) = Some (x l b' j)) /\
     (forall l j, 0 <= l < lanes -> 0 <= j < 8 -> snd q l j = wrapU 16 (sumZ (fun b' => x l b' j) 0 b))).
  assert (Step : forall b cnt q, 0 <= b < blocks_of c -> (forall j, 0 <= j < 8 -> (j <? cnt) = (8 * b + j <? c)) -> I b q ->
     exists q', pack_block input lanes (st_stride s) cnt (src + 8 * b) (dst + 8 * lanes * b) q = Some q' /\ I (b + 1) q').
  { intros b cnt [s0 a0] Hb Hcnt [F [G1 G2]]. cbn [fst snd] in *. specialize (HT (b + 1) ltac:(lia)) as T1. specialize (HT1 b ltac:(lia)) as T2.
    specialize (HT b ltac:(lia)) as T3.
    destruct (pack_block_ok input lanes (st_stride s) cnt (src + 8 * b) (dst + 8 * lanes * b) s0 a0 (fun l j => x l b j))
      as (s1 & a1 & E1 & F1 & H1 & H2).
    - lia.
    - eapply alloc_sub; [eapply frame_alloc; [exact F|exact Ha]| |]; lia.
    - intros l j Hl' Hj. rewrite Hcnt by lia. unfold x, lane_byte. destruct (Z.ltb_spec (8 * b + j) c); [|reflexivity].
      unfold rd. replace (src + 8 * b + l * st_stride s + j) with (src + l * st_stride s + (8 * b + j)) by lia.
      apply Hin; lia.
    - exists (s1, a1). split; [exact E1|]. unfold I. cbn [fst snd]. split.
      { eapply frame_trans; [exact F|]. eapply frame_sub; [exact F1| |]; lia. }
      split.
      + intros l b' j Hl' Hb' Hj. destruct (Z.eq_dec b' b) as [->|Hneb].
        * rewrite <- (H1 l j Hl' Hj). f_equal. lia.
        * rewrite (proj1 F1); [apply G1; lia|]. assert (lanes * (b' + 1) <= lanes * b) by (apply Z.mul_le_mono_nonneg_l; lia). lia.
      + intros l j Hl' Hj. rewrite H2, G2 by lia. rewrite sumZ_last by lia. unfold wrapU. rewrite Z.add_mod_idemp_l by lia. reflexivity. }
  destruct (for_step_inv1 I 0 B (fun b => pack_block input lanes (st_stride s) 8 (src + 8 * b) (dst + 8 * lanes * b)) (sc, fun _ _ => 0))
    as [q0 [E0 I0]].
  { lia. }
  { unfold I. cbn [fst snd]. split; [apply frame_refl|]. split; [intros; lia|]. intros. rewrite sumZ_empty by lia. reflexivity. }
  { intros b q Hb HI. apply Step; [lia| |exact HI]. intros j Hj. lia. }
  rewrite E0. cbn [bind]. clear E0.
  assert (Hq : exists q, (let '(sc0, acc) := q0 in if lo =? 0 then Some (sc0, acc)
      else pack_block input lanes (st_stride s) lo (src + 8 * B) (dst + 8 * lanes * B) (sc0, acc)) = Some q /\ I (blocks_of c) q).
  { destruct q0 as [s0 a0]. rewrite HBB. destruct (Z.eqb_spec lo 0) as [H0|H0].
    - exists (s0, a0). rewrite Z.add_0_r. auto.
    - apply Step; [lia| |exact I0]. intros j Hj. lia. }
  destruct q0 as [s0 a0], Hq as [[s1 a1] [E1 [F1 [G1 G2]]]]. cbv beta iota in E1. rewrite E1. cbn [bind fst snd] in *. clear E1 I0.
  rewrite <- HBB.
  assert (Hsum : forall l, 0 <= l < lanes -> lane_sum lanes s a1 l = wrapS 32 (sumZ (f l) 0 c * st_mult s + st_add s)).
  { intros l Hl'. unfold lane_sum. destruct (Z.ltb_spec l lanes); [|lia].
    rewrite (sumZ_ext (a1 l) (fun j => sumZ (fun b => lane_byte f c l (8 * b + j)) 0 (blocks_of c))).
    2:{ intros j Hj. rewrite G2 by lia. unfold wrapU. apply Z.mod_small.
        pose proof (sumZ_bound (fun b' => x l b' j) 0 (blocks_of c) 0 255 ltac:(lia) ltac:(intros; apply Hx; lia)). change (2 ^ 16) with 65536. unfold x in *. lia. }
    rewrite sum_blocks by lia. rewrite sum_lane by (rewrite HBB; destruct (Z.eqb_spec lo 0); lia).
    rewrite <- wrapS_add_l, wrapS_mul_l, wrapS_add_l by lia. reflexivity. }
  set (W := dst + 8 * lanes * blocks_of c). set (nw := if lanes <=? 4 then 4 else 8).
  assert (Hnw : lanes <= nw <= 8) by (unfold nw; destruct (Z.leb_spec lanes 4); lia).
  specialize (HT (blocks_of c) ltac:(lia)) as TT.
  destruct (for_step_inv1 (fun i s2 => frame s1 s2 W (W + 32) /\
     forall l, 0 <= l < lanes -> l < i -> rd32 s2 (W + 4 * l) = Some (wrapS 32 (sumZ (f l) 0 c * st_mult s + st_add s)))
     0 nw (fun l sc0 => wr32 sc0 (W + 4 * l) (lane_sum lanes s a1 l)) s1) as [s' [E [F2 H2]]].
  - lia.
  - split; [apply frame_refl|intros; lia].
  - intros i s2 Hi [F2 H2].
    destruct (wr32_ok s2 (W + 4 * i) (lane_sum lanes s a1 i)) as (s3 & E3 & F3 & H3).
    + eapply alloc_sub; [eapply frame_alloc; [exact F2|]; eapply frame_alloc; [exact F1|exact Ha]| |]; unfold W; lia.
    + exists s3. split; [exact E3|]. split.
      * eapply frame_trans; [exact F2|]. eapply frame_sub; [exact F3| |]; lia.
      * intros l Hl1 Hl2. destruct (Z.eq_dec l i) as [->|Hn].
        -- rewrite (rd32_ok _ _ _ H3). rewrite Hsum by lia. rewrite wrapS_idem by lia. reflexivity.
        -- rewrite (rd32_frame _ _ _ _ _ F3) by lia. apply H2; lia.
  - exists s'. split; [exact E|]. split.
    + eapply frame_trans; [exact F1|]. eapply frame_sub; [exact F2| |]; unfold W; lia.
    + split.
      * intros l b j H3 H4 H5. fold c in H4 |- *. etransitivity; [|exact (G1 l b j H3 H4 H5)]. apply F2. unfold W.
        assert (lanes * (b + 1) <= lanes * blocks_of c) by (apply Z.mul_le_mono_nonneg_l; lia). lia.
      * intros l H3. fold c. apply H2; lia.
Qed.

(* ------------------------------------------------------------------ *)
(* logs *)
Lemma NoDup_app {A} (l l' : list A) : NoDup l -> NoDup l' -> (forall x, In x l -> ~ In x l') -> NoDup (l ++ l').
Proof.
  intros H1 H2 H. induction H1 as [|x l Hx H1 IH]; [exact H2|]. cbn. constructor.
  - rewrite in_app_iff. intros [C|C]; [tauto|]. apply (H x); [left; reflexivity|exact C].
  - apply IH. intros y Hy. apply H. right. exact Hy.
Qed.
Lemma log_ext {A} (P Q : Z -> Z -> Prop) addr addr' (v v' : Z -> Z -> A) log : log_over P addr v log ->
  (forall i j, P i j <-> Q i j) -> (forall i j, P i j -> addr i j = addr' i j /\ v i j = v' i j) -> log_over Q addr' v' log.
Proof.
  intros [vis [E [N H]]] HP HV. exists vis. split.
  - rewrite E. apply map_ext_in. intros [i j] Hi. cbn [fst snd]. apply H in Hi. apply HV in Hi. destruct Hi. congruence.
  - split; [exact N|]. intros. rewrite H. apply HP.
Qed.
Lemma log_nil {A} (P : Z -> Z -> Prop) addr (v : Z -> Z -> A) : (forall i j, ~ P i j) -> log_over P addr v [].
Proof. intros H. exists []. split; [reflexivity|]. split; [constructor|]. intros i j. split; [intros []|intros C; exact (H i j C)]. Qed.
Lemma log_one {A} addr (v : Z -> Z -> A) i j : log_over (fun x y => x = i /\ y = j) addr v [(addr i j, v i j)].
Proof.
  exists [(i, j)]. split; [reflexivity|]. split; [constructor; [intros []|constructor]|].
  intros x y. cbn. split; [intros [H|[]]; inversion H; auto|intros [-> ->]; auto].
Qed.
Lemma log_app {A} (P Q : Z -> Z -> Prop) addr (v : Z -> Z -> A) l l' : log_over P addr v l -> log_over Q addr v l' ->
  (forall i j, P i j -> ~ Q i j) -> log_over (fun i j => P i j \/ Q i j) addr v (l ++ l').
Proof.
  intros [x [E [N H]]] [y [E' [N' H']]] D. exists (x ++ y). split; [rewrite map_app; congruence|]. split.
  - apply NoDup_app; auto. intros [i j] C1 C2. apply H in C1. apply H' in C2. exact (D i j C1 C2).
  - intros i j. rewrite in_app_iff, H, H'. reflexivity.
Qed.
Lemma log_shift {A} (P : Z -> Z -> Prop) addr (v : Z -> Z -> A) log a b : log_over P addr v log ->
  log_over (fun i j => P (i - a) (j - b)) (fun i j => addr (i - a) (j - b)) (fun i j => v (i - a) (j - b)) log.
Proof.
  intros [vis [E [N H]]]. exists (map (fun q => (fst q + a, snd q + b)) vis). split.
  - rewrite map_map, E. apply map_ext. intros [i j]. cbn [fst snd]. rewrite !Z.add_simpl_r. reflexivity.
  - split.
    + apply Injective_map_NoDup; [|exact N]. intros [i j] [k l] C. inversion C. f_equal; lia.
    + intros i j. rewrite in_map_iff, <- H. split.
      * intros [[k l] [C Hi]]. inversion C. cbn [fst snd]. rewrite !Z.add_simpl_r. exact Hi.
      * intros Hi. eexists. split; [|exact Hi]. cbn [fst snd]. f_equal; lia.
Qed.

(* ------------------------------------------------------------------ *)
(* the kernel *)
Lemma kernel_dot_ok sc m n s s' lhs rhs f g i j count :
  st_count s = count -> st_count s' = count -> 1 <= count -> packed sc lhs m s f -> packed sc rhs n s' g -> 0 <= i < m -> 0 <= j < n ->
  kernel_dot sc m n count lhs rhs i j = Some (wrapS 32 (sumZ (fun d => f i d * g j d) 0 count)).
Proof.
  intros Hs Hs' Hc [P1 _] [P2 _] Hi Hj. rewrite Hs in P1. rewrite Hs' in P2. unfold kernel_dot. rewrite kernel_blocks_eq by lia.
  set (h := fun d => lane_byte f count i d * lane_byte g count j d).
  assert (HB : 1 <= blocks_of count) by (unfold blocks_of; lia).
  destruct (for_step_inv1 (fun b acc => acc = wrapS 32 (sumZ h 0 (8 * b))) 0 (blocks_of count) (fun b acc =>
    for_step 0 8 1 (fun d acc =>
      let* x := rd sc (lhs + 8 * (m * b + i) + d) in
      let* y := rd sc (rhs + 8 * (n * b + j) + d) in
      Some (wrapS 32 (acc + x * y))) acc) 0) as [r [E ->]].
  - lia.
  - rewrite sumZ_empty by lia. reflexivity.
  - intros b acc Hb ->.
    destruct (for_step_inv1 (fun d acc => acc = wrapS 32 (sumZ h 0 (8 * b + d))) 0 8 (fun d acc =>
      let* x := rd sc (lhs + 8 * (m * b + i) + d) in
      let* y := rd sc (rhs + 8 * (n * b + j) + d) in
      Some (wrapS 32 (acc + x * y))) (wrapS 32 (sumZ h 0 (8 * b)))) as [r [E ->]].
    + lia.
    + rewrite Z.add_0_r. reflexivity.
    + intros d acc Hd ->. unfold rd. rewrite (P1 i b d), (P2 j b d) by lia. cbn [bind]. eexists. split; [reflexivity|].
      rewrite wrapS_add_l by lia. replace (8 * b + (d + 1)) with (8 * b + d + 1) by lia. rewrite sumZ_last by lia. reflexivity.
    + eexists. split; [exact E|]. f_equal. f_equal. lia.
  - rewrite E. do 2 f_equal. rewrite (sumZ_split h 0 count) by (unfold blocks_of; lia).
    rewrite (sumZ_zero h count).
    + rewrite Z.add_0_r. apply sumZ_ext. intros d Hd. unfold h, lane_byte. destruct (Z.ltb_spec d count); [reflexivity|lia].
    + intros d Hd. unfold h, lane_byte. destruct (Z.ltb_spec d count); lia.
Qed.

Lemma kernel_exists_le m n m' n' : kernel_exists m n = true -> 1 <= m' <= m -> 1 <= n' <= n -> kernel_exists m' n' = true.
Proof. unfold kernel_exists. lia. Qed.
Lemma kernel_exists_range m n : kernel_exists m n = true -> 1 <= m <= 3 /\ 1 <= n <= 8.
Proof. unfold kernel_exists. lia. Qed.

Section Kernel.
Context {A : Type} (p : gemm_params A).

Lemma Multiply_ok m n sc lhs rhs result f g :
  0 <= m -> 0 <= n -> (0 < m -> 0 < n -> kernel_exists m n = true) ->
  st_count (p_left p) = p_count p -> st_count (p_right p) = p_count p -> 1 <= p_count p ->
  packed sc lhs m (p_left p) f -> packed sc rhs n (p_right p) g ->
  exists t, Multiply m n (p_count p) (p_fin p) (p_esz p) (p_ostride p) sc lhs rhs result = Some t /\
    log_over (rect m n) (fun i j => result + i * p_ostride p + j * p_esz p)
      (fun i j => p_fin p (wrapS 32 (stream_total (p_left p) (p_right p) (p_count p) f g i j))) t.
Proof.
  intros Hm Hn He HL HR Hc PL PR. unfold Multiply. destruct (Z.eqb_spec m 0) as [->|Hm0].
  { exists []. split; [reflexivity|]. apply log_nil. unfold rect. lia. }
  destruct (Z.eqb_spec n 0) as [->|Hn0].
  { exists []. split; [reflexivity|]. apply log_nil. unfold rect. lia. }
  rewrite He by lia. cbn [orb guard bind]. rewrite kernel_blocks_eq by lia.
  set (addr := fun i j => result + i * p_ostride p + j * p_esz p).
  set (v := fun i j => p_fin p (wrapS 32 (stream_total (p_left p) (p_right p) (p_count p) f g i j))).
  set (inner := fun i log => for_step 0 n 1 (fun j log =>
        let* a := kernel_dot sc m n (p_count p) lhs rhs i j in
        let* ls := rd32 sc (lhs + 8 * m * blocks_of (p_count p) + 4 * i) in
        let* rs := rd32 sc (rhs + 8 * n * blocks_of (p_count p) + 4 * j) in
        Some (log ++ [(result + i * p_ostride p + j * p_esz p, p_fin p (wrapS 32 (a + ls + rs)))])) log).
  destruct (for_step_inv1 (fun i log => log_over (rect i n) addr v log) 0 m inner []) as [t [E H]].
  - lia.
  - apply log_nil. unfold rect. lia.
  - intros i log Hi HI. unfold inner.
    destruct (for_step_inv1 (fun j log => log_over (fun x y => rect i n x y \/ x = i /\ 0 <= y < j) addr v log) 0 n (fun j log =>
        let* a := kernel_dot sc m n (p_count p) lhs rhs i j in
        let* ls := rd32 sc (lhs + 8 * m * blocks_of (p_count p) + 4 * i) in
        let* rs := rd32 sc (rhs + 8 * n * blocks_of (p_count p) + 4 * j) in
        Some (log ++ [(result + i * p_ostride p + j * p_esz p, p_fin p (wrapS 32 (a + ls + rs)))])) log) as [t [E H]].
    + lia.
    + eapply log_ext; [exact HI| |auto]. unfold rect. lia.
    + intros j l Hj HJ. rewrite (kernel_dot_ok sc m n (p_left p) (p_right p) lhs rhs f g i j (p_count p)) by auto.
      cbn [bind]. destruct PL as [_ PL], PR as [_ PR]. rewrite HL in PL. rewrite HR in PR. rewrite PL, PR by lia. cbn [bind].
      eexists. split; [reflexivity|].
      assert (V : p_fin p (wrapS 32 (wrapS 32 (sumZ (fun d => f i d * g j d) 0 (p_count p))
         + wrapS 32 (sumZ (f i) 0 (p_count p) * st_mult (p_left p) + st_add (p_left p))
         + wrapS 32 (sumZ (g j) 0 (p_count p) * st_mult (p_right p) + st_add (p_right p)))) = v i j).
      { unfold v, stream_total. f_equal. rewrite wrapS_add_r by lia. rewrite <- wrapS_add_l by lia.
        rewrite wrapS_add_r, wrapS_add_l by lia. rewrite <- Z.add_assoc. rewrite wrapS_add_l by lia. f_equal. lia. }
      rewrite V. change (result + i * p_ostride p + j * p_esz p) with (addr i j).
      eapply log_ext; [eapply log_app; [exact HJ|apply log_one|]| |auto]; unfold rect; lia.
    + exists t. split; [exact E|]. eapply log_ext; [exact H| |auto]. unfold rect. lia.
  - exists t. split; [exact E|exact H].
Qed.
End Kernel.
