From Coq Require Import FinFun.
From Verif Require Import Base BaseLemmas FixedPointModel CommonModel PackModel ComputeModel OutputModel OutputSpec OutputProofs UnpackModel.

(* the scalar computation UnpackResultBlock performs on one entry *)
Definition addc (m : ovf) (k x : Z) : option Z := if k =? 0 then Some x else norm m 32 (x + k).
Definition unpack_at (m : ovf) (zl zr depth a sl sr lo ro : Z) : option Z :=
  let* lo' := addc m zl lo in
  let* ro' := addc m zr ro in
  let* a1 := MulAdd m sl ro' a in
  let* rd := norm m 32 (ro' * depth) in
  let* s := norm m 32 (sr + rd) in
  MulAdd m s lo' a1.

(* a vector map of the given shape, or a VectorDup (whose shape is irrelevant) *)
Definition has_shape (v : vec) (sh : vshape) : Prop := match v with VMap s _ => s = sh | VDup _ _ _ => True end.

Section Loops.
Context {S : Type}.
Lemma for_loop_ix_inv (I : Z -> S -> Prop) start stop step body (Hs : 0 < step)
  (Hstep : forall i s, start <= i -> (step | i - start) -> i < stop -> I i s ->
     exists s', body i s = Some s' /\ I (i + step) s') :
  forall fuel i s, stop - i <= Z.of_nat fuel -> start <= i -> (step | i - start) -> I i s ->
    (i = start \/ i < stop + step) ->
    exists j s', for_loop_ix fuel i stop step body s = Some (j, s') /\ I j s' /\ stop <= j /\ start <= j /\
      (j = start \/ j < stop + step).
Proof.
  induction fuel as [|n IH]; intros i s Hf Hi Hd HI Hb.
  - cbn. replace (i <? stop) with false by lia. exists i, s. repeat split; try assumption. lia.
  - cbn. destruct (i <? stop) eqn:El.
    + destruct (Hstep i s Hi Hd ltac:(lia) HI) as (s' & E & HI'). rewrite E. cbn [bind].
      apply IH; [lia|lia| |exact HI'|right; lia].
      replace (i + step - start) with ((i - start) + step) by lia.
      apply Z.divide_add_r; [exact Hd|apply Z.divide_refl].
    + exists i, s. repeat split; try assumption. lia.
Qed.
Lemma for_ix_inv (I : Z -> S -> Prop) start stop step body s : 0 < step ->
  (forall i s, start <= i -> (step | i - start) -> i < stop -> I i s ->
     exists s', body i s = Some s' /\ I (i + step) s') -> I start s ->
  exists j s', for_ix start stop step body s = Some (j, s') /\ I j s' /\ stop <= j /\ start <= j /\
     (j = start \/ j < stop + step).
Proof.
  intros Hs Hstep HI. apply (for_loop_ix_inv I start); try assumption; try lia.
  replace (start - start) with 0 by lia. apply Z.divide_0_r.
Qed.
Lemma row_loops_spec (I : Z -> S -> Prop) rows b8 b4 b1 s : 0 <= rows -> I 0 s ->
  (forall r s, 0 <= r -> r + 8 <= rows -> I r s -> exists s', b8 r s = Some s' /\ I (r + 8) s') ->
  (forall r s, 0 <= r -> r + 4 <= rows -> I r s -> exists s', b4 r s = Some s' /\ I (r + 4) s') ->
  (forall r s, 0 <= r -> r + 1 <= rows -> I r s -> exists s', b1 r s = Some s' /\ I (r + 1) s') ->
  exists s', row_loops rows b8 b4 b1 s = Some s' /\ I rows s'.
Proof.
  intros Hr HI H8 H4 H1. unfold row_loops.
  destruct (for_ix_inv I 0 (rows - 8 + 1) 8 b8 s) as (r8 & s8 & E8 & I8 & A8 & B8 & C8); [lia| |exact HI|].
  { intros i t Hi _ Hl HIi. apply H8; [lia|lia|exact HIi]. }
  rewrite E8. cbn [bind].
  destruct (for_ix_inv I r8 (rows - 4 + 1) 4 b4 s8) as (r4 & s4 & E4 & I4 & A4 & B4 & C4); [lia| |exact I8|].
  { intros i t Hi _ Hl HIi. apply H4; [lia|lia|exact HIi]. }
  rewrite E4. cbn [bind].
  destruct (for_ix_inv I r4 rows 1 b1 s4) as (r1 & s1 & E1 & I1 & A1 & B1 & C1); [lia| |exact I4|].
  { intros i t Hi _ Hl HIi. apply H1; [lia|lia|exact HIi]. }
  rewrite E1. cbn [bind]. exists s1. split; [reflexivity|]. replace rows with r1 by lia. exact I1.
Qed.
Lemma for_0_8_4 (body : Z -> S -> option S) s :
  for_step 0 8 4 body s = let* s1 := body 0 s in body 4 s1.
Proof.
  unfold for_step. change (Z.to_nat (8 - 0)) with 8%nat. cbn [for_loop].
  change (0 <? 8) with true. cbn [Z.add]. destruct (body 0 s) as [s1|]; [|reflexivity]. cbn [bind].
  change (4 <? 8) with true. cbn match. destruct (body 4 s1) as [s2|]; [|reflexivity]. cbn [bind].
  change (4 + 4 <? 8) with false. reflexivity.
Qed.
End Loops.

(* ------------------------------------------------------------------ *)
(* A list of stores that visits each position of a region exactly once *)
Section Covers.
Variable ent : Z -> Z -> Z * Z.
Definition covers (P : Z -> Z -> Prop) (log : list (Z * Z)) : Prop :=
  exists vis, log = map (fun q => ent (fst q) (snd q)) vis /\ NoDup vis /\
    forall r c, In (r, c) vis <-> P r c.
Lemma covers_nil (P : Z -> Z -> Prop) : (forall r c, ~ P r c) -> covers P [].
Proof. intros H. exists []. split; [reflexivity|]. split; [constructor|]. intros r c. split; [intros []|intros HP; exact (H r c HP)]. Qed.
Lemma covers_ext (P Q : Z -> Z -> Prop) log : (forall r c, P r c <-> Q r c) -> covers P log -> covers Q log.
Proof. intros H (vis & E & N & HI). exists vis. split; [exact E|]. split; [exact N|]. intros r c. rewrite HI. apply H. Qed.
Lemma NoDup_app2 {A} (l1 l2 : list A) : NoDup l1 -> NoDup l2 -> (forall x, In x l1 -> ~ In x l2) -> NoDup (l1 ++ l2).
Proof.
  induction l1 as [|a t IH]; cbn; intros H1 H2 H; [exact H2|]. inversion H1; subst. constructor.
  - rewrite in_app_iff. intros [?|Hin]; [contradiction|]. exact (H a (or_introl eq_refl) Hin).
  - apply IH; try assumption. intros x Hx. apply H. right. exact Hx.
Qed.
Lemma covers_app (P Q : Z -> Z -> Prop) l1 l2 : (forall r c, P r c -> ~ Q r c) -> covers P l1 -> covers Q l2 ->
  covers (fun r c => P r c \/ Q r c) (l1 ++ l2).
Proof.
  intros HD (v1 & E1 & N1 & I1) (v2 & E2 & N2 & I2). exists (v1 ++ v2).
  split; [rewrite map_app, E1, E2; reflexivity|]. split.
  - apply NoDup_app2; try assumption. intros [r c] H1' H2'. apply I1 in H1'. apply I2 in H2'. exact (HD r c H1' H2').
  - intros r c. rewrite in_app_iff, I1, I2. reflexivity.
Qed.
Definition in_rect (r0 r1 c0 c1 r c : Z) : Prop := r0 <= r < r1 /\ c0 <= c < c1.
Lemma covers_tile r0 c0 R C log : 0 < R -> 0 < C ->
  log = map (fun i => ent (r0 + i / C) (c0 + i mod C)) (zrange (R * C)) ->
  covers (in_rect r0 (r0 + R) c0 (c0 + C)) log.
Proof.
  intros HR HC ->. exists (map (fun i => (r0 + i / C, c0 + i mod C)) (zrange (R * C))).
  split; [rewrite map_map; reflexivity|]. split.
  - apply NoDup_map_inv with (f := fun q => (fst q - r0) * C + (snd q - c0)). rewrite map_map.
    erewrite map_ext; [rewrite map_id; apply zrange_NoDup|]. intros i. cbn.
    pose proof (Z.div_mod i C ltac:(lia)). lia.
  - intros r c. rewrite in_map_iff. unfold in_rect. split.
    + intros (i & E & Hi). injection E as <- <-. apply zrange_In in Hi.
      destruct (idx_mod_div C R i HC HR ltac:(lia)). lia.
    + intros [Hr Hc]. exists ((c - c0) + (r - r0) * C). split.
      * destruct (idx_mk C (c - c0) (r - r0) ltac:(lia)) as [-> ->]. f_equal; lia.
      * apply zrange_In. pose proof (idx_bound C R (c - c0) (r - r0)). lia.
Qed.
End Covers.

(* performing stores *)
Lemma perform_spec log : forall m, (forall a v, In (a, v) log -> exists o, m a = Some o) ->
  NoDup (map fst log) ->
  exists m', perform log m = Some m' /\ (forall a v, In (a, v) log -> m' a = Some v) /\
    (forall a, ~ In a (map fst log) -> m' a = m a).
Proof.
  induction log as [|[a v] t IH]; intros m Hal Hnd.
  - exists m. split; [reflexivity|]. split; [intros ? ? []|]. intros; reflexivity.
  - cbn [perform]. destruct (Hal a v (or_introl eq_refl)) as [o Eo].
    unfold wr. rewrite Eo. cbn [bind]. cbn [map fst] in Hnd. inversion Hnd as [|? ? Hna Hnt]; subst.
    destruct (IH (upd m a v)) as (m' & E & H1 & H2); [|exact Hnt|].
    { intros a' v' Hin. unfold upd. destruct (a' =? a); [eauto|]. exact (Hal a' v' (or_intror Hin)). }
    exists m'. split; [exact E|]. split.
    + intros a' v' [Eq|Hin]; [|exact (H1 a' v' Hin)]. injection Eq as <- <-.
      rewrite H2 by exact Hna. unfold upd. rewrite Z.eqb_refl. reflexivity.
    + intros a' Hn. cbn [map fst In] in Hn. rewrite H2 by tauto. unfold upd.
      destruct (Z.eqb_spec a' a); [exfalso; apply Hn; left; congruence|reflexivity].
Qed.

(* ------------------------------------------------------------------ *)
Section Unpack.
Variables (m : ovf) (k : kernel_fmt) (src : mem) (src_map : matrix_map) (p : list stage).
Variables (lhs_sums rhs_sums lhs_offset rhs_offset : vec) (depth : Z).
Variables (rows cols row0 col0 : Z).
Variables (A : Z -> Z -> Z) (SL SR LO RO : Z -> Z) (out : Z -> Z -> Z).
Hypothesis Hrows : 0 <= rows.
Hypothesis Hcols : 0 <= cols.
Hypothesis Hcm : mm_order src_map = ColMajor.
Hypothesis HA : forall r c, 0 <= r < rows -> 0 <= c < cols -> src (mm_addr src_map r c) = Some (A r c).
Hypothesis HSLs : vec_shape lhs_sums = VCol.
Hypothesis HSRs : vec_shape rhs_sums = VRow.
Hypothesis HLOs : has_shape lhs_offset VCol.
Hypothesis HROs : has_shape rhs_offset VRow.
Hypothesis HSL : forall r, 0 <= r < rows -> vec_get lhs_sums r = Some (SL r).
Hypothesis HSR : forall c, 0 <= c < cols -> vec_get rhs_sums c = Some (SR c).
Hypothesis HLO : forall r, 0 <= r < rows -> vec_get lhs_offset r = Some (LO r).
Hypothesis HRO : forall c, 0 <= c < cols -> vec_get rhs_offset c = Some (RO c).
Let zl := sf_zp (kf_lhs k).
Let zr := sf_zp (kf_rhs k).
Definition U (r c : Z) : option Z := unpack_at m zl zr depth (A r c) (SL r) (SR c) (LO r) (RO c).
Hypothesis HU : forall r c, 0 <= r < rows -> 0 <= c < cols ->
  exists a, U r c = Some a /\ pipe_at m p (row0 + r) (col0 + c) a = Some (out (row0 + r) (col0 + c)).

Lemma UnpackResultBlock_spec R C dst r0 c0 drow dcol : 0 < R -> 0 < C ->
  0 <= r0 -> r0 + R <= rows -> 0 <= c0 -> c0 + C <= cols ->
  UnpackResultBlock m k R C src src_map p dst lhs_sums rhs_sums lhs_offset rhs_offset depth
     r0 c0 (r0 + row0) (c0 + col0) drow dcol =
  Some (map (fun i => (mm_addr dst (drow + i / C) (dcol + i mod C),
                       out (row0 + (r0 + i / C)) (col0 + (c0 + i mod C)))) (zrange (R * C))).
Proof.
  intros HR HC Hr0 HrR Hc0 HcC. unfold UnpackResultBlock.
  destruct (block_init_spec R C (fun r c => rd src (mm_addr src_map r0 (c0 + c) + r)) (fun r c => A (r0 + r) (c0 + c)) HR HC)
    as (acc & Eacc & Hacc).
  { intros r c Hr Hc. unfold rd. rewrite <- HA by lia. f_equal. unfold mm_addr, mm_rows_stride, mm_cols_stride. rewrite Hcm. lia. }
  unfold LoadColMajor. rewrite Eacc. cbn [bind].
  destruct (LoadForBroadcasting_spec R C lhs_sums r0 (fun r c => SL (r0 + r)) HR HC) as (b1 & E1 & V1 & _).
  { intros r c Hr Hc. rewrite HSLs. cbn [pos_of]. apply HSL. lia. }
  rewrite E1. cbn [bind].
  destruct (LoadForBroadcasting_spec R C rhs_sums c0 (fun r c => SR (c0 + c)) HR HC) as (b2 & E2 & V2 & _).
  { intros r c Hr Hc. rewrite HSRs. cbn [pos_of]. apply HSR. lia. }
  rewrite E2. cbn [bind].
  destruct (LoadForBroadcasting_spec R C lhs_offset r0 (fun r c => LO (r0 + r)) HR HC) as (b3 & E3 & V3 & _).
  { intros r c Hr Hc. rewrite <- HLO by lia. destruct lhs_offset as [sh u|]; cbn in HLOs |- *; [subst sh|]; reflexivity. }
  rewrite E3. cbn [bind].
  destruct (LoadForBroadcasting_spec R C rhs_offset c0 (fun r c => RO (c0 + c)) HR HC) as (b4 & E4 & V4 & _).
  { intros r c Hr Hc. rewrite <- HRO by lia. destruct rhs_offset as [sh u|]; cbn in HROs |- *; [subst sh|]; reflexivity. }
  rewrite E4. cbn [bind].
  assert (HUt : forall r c, 0 <= r < R -> 0 <= c < C -> exists a, U (r0 + r) (c0 + c) = Some a /\
      pipe_at m p (r0 + row0 + r) (c0 + col0 + c) a = Some (out (row0 + (r0 + r)) (col0 + (c0 + c)))).
  { intros r c Hr Hc. destruct (HU (r0 + r) (c0 + c)) as (a & Ea & Ep); [lia|lia|]. exists a. split; [exact Ea|].
    replace (r0 + row0 + r) with (row0 + (r0 + r)) by lia. replace (c0 + col0 + c) with (col0 + (c0 + c)) by lia. exact Ep. }
  set (lo' := fun r => getv (addc m zl (LO r))). set (ro' := fun c => getv (addc m zr (RO c))).
  set (a1 := fun r c => getv (MulAdd m (SL r) (ro' c) (A r c))).
  set (rd' := fun c => getv (norm m 32 (ro' c * depth))).
  set (s' := fun c => getv (norm m 32 (SR c + rd' c))).
  assert (HX : forall r c, 0 <= r < R -> 0 <= c < C ->
     addc m zl (LO (r0 + r)) = Some (lo' (r0 + r)) /\ addc m zr (RO (c0 + c)) = Some (ro' (c0 + c)) /\
     MulAdd m (SL (r0 + r)) (ro' (c0 + c)) (A (r0 + r) (c0 + c)) = Some (a1 (r0 + r) (c0 + c)) /\
     norm m 32 (ro' (c0 + c) * depth) = Some (rd' (c0 + c)) /\
     norm m 32 (SR (c0 + c) + rd' (c0 + c)) = Some (s' (c0 + c)) /\
     MulAdd m (s' (c0 + c)) (lo' (r0 + r)) (a1 (r0 + r) (c0 + c)) = U (r0 + r) (c0 + c)).
  { intros r c Hr Hc. destruct (HUt r c Hr Hc) as (a & Ea & _). unfold U, unpack_at in Ea |- *.
    apply bind_some in Ea as (x1 & X1 & Ea). apply bind_some in Ea as (x2 & X2 & Ea).
    apply bind_some in Ea as (x3 & X3 & Ea). apply bind_some in Ea as (x4 & X4 & Ea).
    apply bind_some in Ea as (x5 & X5 & Ea).
    assert (L1 : lo' (r0 + r) = x1) by (unfold lo'; rewrite X1; reflexivity).
    assert (L2 : ro' (c0 + c) = x2) by (unfold ro'; rewrite X2; reflexivity).
    assert (L3 : a1 (r0 + r) (c0 + c) = x3) by (unfold a1; rewrite L2, X3; reflexivity).
    assert (L4 : rd' (c0 + c) = x4) by (unfold rd'; rewrite L2, X4; reflexivity).
    assert (L5 : s' (c0 + c) = x5) by (unfold s'; rewrite L4, X5; reflexivity).
    rewrite X1, X2. cbn [bind]. rewrite L1, L2, L3, L4, L5, X3. cbn [bind]. rewrite X4. cbn [bind]. rewrite X5. cbn [bind].
    repeat split. }
  destruct (AddConstant_spec m zl b3 R C _ (fun r c => lo' (r0 + r)) HR HC V3) as (b5 & E5 & V5 & _).
  { intros r c Hr Hc. destruct (HX r c Hr Hc) as (X & _). exact X. }
  fold zl zr. rewrite E5. cbn [bind].
  destruct (AddConstant_spec m zr b4 R C _ (fun r c => ro' (c0 + c)) HR HC V4) as (b6 & E6 & V6 & _).
  { intros r c Hr Hc. destruct (HX r c Hr Hc) as (_ & X & _). exact X. }
  rewrite E6. cbn [bind].
  destruct (BroadcastMulAdd_spec m b1 b6 acc R C _ _ _ (fun r c => a1 (r0 + r) (c0 + c)) HR HC V1 V6 Hacc) as (b7 & E7 & V7).
  { intros r c Hr Hc. destruct (HX r c Hr Hc) as (_ & _ & X & _). exact X. }
  rewrite E7. cbn [bind].
  destruct (views_map (fun x => Mul m 32 x depth) b6 R C _ (fun r c => rd' (c0 + c)) HR HC V6) as (b8 & E8 & V8 & _).
  { intros r c Hr Hc. destruct (HX r c Hr Hc) as (_ & _ & _ & X & _). exact X. }
  rewrite E8. cbn [bind].
  destruct (Broadcast_comm (Add m 32) b2 b8 R C (fun _ c => SR (c0 + c)) (fun _ c => rd' (c0 + c)) (fun r c => s' (c0 + c)) HR HC) as (b9 & E9 & V9 & _); [|exact V2|exact V8| |].
  { intros x y. unfold Add. rewrite Z.add_comm. reflexivity. }
  { intros r c Hr Hc. destruct (HX r c Hr Hc) as (_ & _ & _ & _ & X & _). exact X. }
  unfold BroadcastAdd. rewrite E9. cbn [bind].
  destruct (BroadcastMulAdd_spec m b9 b5 b7 R C _ _ _ (fun r c => getv (U (r0 + r) (c0 + c))) HR HC V9 V5 V7) as (b10 & E10 & V10).
  { intros r c Hr Hc. destruct (HX r c Hr Hc) as (_ & _ & _ & _ & _ & X). rewrite X.
    destruct (HUt r c Hr Hc) as (a & Ea & _). rewrite Ea. reflexivity. }
  rewrite E10. cbn [bind].
  apply (Execute_spec m R C (r0 + row0) (c0 + col0) HR HC p b10 _ (fun r c => out (row0 + (r0 + r)) (col0 + (c0 + c))) dst drow dcol V10).
  intros r c Hr Hc. destruct (HUt r c Hr Hc) as (a & Ea & Ep). rewrite Ea. exact Ep.
Qed.

End Unpack.

(* ---- the whole block, for any tile code ---- *)
Section Tiles.
Variable block : Z -> Z -> matrix_map -> Z -> Z -> Z -> Z -> Z -> Z -> option (list (Z * Z)).
Variable store88 : mem -> Z -> Z -> option (list (Z * Z)).
Variables (rows cols row0 col0 : Z) (out : Z -> Z -> Z) (dst : matrix_map) (Q : Z -> Prop).
Hypothesis Hrows : 0 <= rows.
Hypothesis Hcols : 0 <= cols.
Hypothesis HQ : forall r c, 0 <= r < rows -> 0 <= c < cols -> Q (out (row0 + r) (col0 + c)).
(* every tile stores its results, each once *)
Definition tile_shape (R C : Z) : Prop := (R = 8 \/ R = 4 \/ R = 1) /\ (C = 4 \/ C = 1).
Hypothesis Hblk : forall R C d r0 c0 drow dcol, tile_shape R C ->
  0 <= r0 -> r0 + R <= rows -> 0 <= c0 -> c0 + C <= cols ->
  exists l, block R C d r0 c0 (r0 + row0) (c0 + col0) drow dcol = Some l /\
    covers (fun i j => (mm_addr d (drow + i) (dcol + j), out (row0 + (r0 + i)) (col0 + (c0 + j)))) (in_rect 0 R 0 C) l.
(* the 8x8 load and store copies the buffer *)
Hypothesis H88 : forall buf g r c, 
  (forall i j, 0 <= i < 8 -> 0 <= j < 8 -> buf (i + j * 8) = Some (g i j) /\ Q (g i j)) ->
  exists l, store88 buf r c = Some l /\
    covers (fun i j => (mm_addr dst (r + i) (c + j), g i j)) (in_rect 0 8 0 8) l.

Definition ent (r c : Z) : Z * Z := (mm_addr dst r c, out r c).

Lemma covers_shift (f : Z -> Z -> Z * Z) R C r0 c0 l : (forall i j, 0 <= i < R -> 0 <= j < C -> f i j = ent (r0 + i) (c0 + j)) ->
  covers f (in_rect 0 R 0 C) l -> covers ent (in_rect r0 (r0 + R) c0 (c0 + C)) l.
Proof.
  intros Hf (vis & -> & N & HI). exists (map (fun q => (r0 + fst q, c0 + snd q)) vis). split; [|split].
  - rewrite map_map. apply map_ext_in. intros [i j] Hin. apply HI in Hin as [? ?]. cbn. apply Hf; lia.
  - apply (NoDup_map_inv (fun q => (fst q - r0, snd q - c0))). rewrite map_map. erewrite map_ext; [rewrite map_id; exact N|].
    intros [i j]. cbn. f_equal; lia.
  - intros r c. rewrite in_map_iff. unfold in_rect. split.
    + intros ([i j] & E & Hin). apply HI in Hin as [? ?]. cbn in E. injection E as <- <-. lia.
    + intros [? ?]. exists (r - r0, c - c0). cbn. split; [f_equal; lia|]. apply HI. split; lia.
Qed.

Lemma tile_spec R C r0 c0 (P : Z -> Z -> Prop) log : tile_shape R C ->
  0 <= r0 -> r0 + R <= rows -> 0 <= c0 -> c0 + C <= cols ->
  (forall r c, P r c -> ~ in_rect (r0 + row0) (r0 + row0 + R) (c0 + col0) (c0 + col0 + C) r c) ->
  covers ent P log ->
  exists log', (let* l := block R C dst r0 c0 (r0 + row0) (c0 + col0) (r0 + row0) (c0 + col0) in Some (log ++ l)) = Some log' /\
    covers ent (fun r c => P r c \/ in_rect (r0 + row0) (r0 + row0 + R) (c0 + col0) (c0 + col0 + C) r c) log'.
Proof.
  intros HRC Hr0 HrR Hc0 HcC HD HP.
  destruct (Hblk R C dst r0 c0 (r0 + row0) (c0 + col0) HRC Hr0 HrR Hc0 HcC) as (l & -> & Hl). cbn [bind].
  eexists. split; [reflexivity|]. apply covers_app; [exact HD|exact HP|].
  refine (covers_shift _ _ _ _ _ _ _ Hl). intros i j Hi Hj. unfold ent. f_equal. f_equal; lia.
Qed.

(* the 8x8 path through a column-major buffer *)
Variable junk : Z -> Z.
Definition buf_ok (buf : mem) (c1 : Z) (r0 c0 : Z) : Prop :=
  (forall a, 0 <= a < 64 -> exists v, buf a = Some v) /\
  (forall r c, 0 <= r < 8 -> 0 <= c < c1 -> buf (r + c * 8) = Some (out (row0 + (r0 + r)) (col0 + (c0 + c)))).
Lemma buf_step r0 c0 cx buf : 0 <= r0 -> r0 + 8 <= rows -> 0 <= c0 -> c0 + 8 <= cols ->
  0 <= cx -> cx + 4 <= 8 -> buf_ok buf cx r0 c0 ->
  exists buf', (let* l := block 8 4 (mk_map 0 8 8 8 ColMajor) r0 (c0 + cx) (r0 + row0) (c0 + cx + col0) 0 cx in perform l buf) = Some buf' /\
    buf_ok buf' (cx + 4) r0 c0.
Proof.
  intros Hr0 HrR Hc0 HcC Hcx Hcx8 [Hal Hv].
  destruct (Hblk 8 4 (mk_map 0 8 8 8 ColMajor) r0 (c0 + cx) 0 cx) as (log & -> & vis & Elog & Nvis & Ivis); try lia.
  { unfold tile_shape. lia. }
  cbn [bind]. unfold mm_addr, mm_rows_stride, mm_cols_stride in Elog; cbn [mm_base mm_order mm_stride] in Elog.
  assert (Hin : forall r c, 0 <= r < 8 -> cx <= c < cx + 4 ->
     In (r + c * 8, out (row0 + (r0 + r)) (col0 + (c0 + c))) log).
  { intros r c Hr Hc. rewrite Elog. apply in_map_iff. exists (r, c - cx). cbn [fst snd].
    split; [|apply Ivis; split; lia]. f_equal; [lia|]. f_equal; lia. }
  assert (Hadr : forall a, In a (map fst log) -> exists r c, 0 <= r < 8 /\ cx <= c < cx + 4 /\ a = r + c * 8).
  { intros a Ha. rewrite Elog, map_map in Ha. apply in_map_iff in Ha as ([i j] & <- & Hi). apply Ivis in Hi as [? ?].
    cbn [fst snd]. exists i, (cx + j). split; [lia|]. split; lia. }
  destruct (perform_spec log buf) as (buf' & E & H1 & H2).
  { intros a v Hi. apply Hal. destruct (Hadr a) as (r & c & B1 & B2 & ->); [apply in_map_iff; exists (a, v); auto|]. lia. }
  { rewrite Elog, map_map. apply (NoDup_map_inv (fun a => (a mod 8, a / 8 - cx))). rewrite map_map.
    erewrite map_ext_in; [rewrite map_id; exact Nvis|]. intros [i j] Hi. apply Ivis in Hi as [? ?]. cbn [fst snd].
    replace (0 + (0 + i) * 1 + (cx + j) * 8) with (i + (cx + j) * 8) by lia.
    destruct (idx_mk 8 i (cx + j) ltac:(lia)) as [-> ->]. f_equal; lia. }
  exists buf'. split; [exact E|]. split.
  - intros a Ha. destruct (in_dec Z.eq_dec a (map fst log)) as [Hi|Hn].
    + apply in_map_iff in Hi as ([a' v] & <- & Hi). exists v. exact (H1 _ _ Hi).
    + rewrite H2 by exact Hn. apply Hal. exact Ha.
  - intros r c Hr Hc. destruct (Z.lt_ge_cases c cx).
    + rewrite H2; [apply Hv; lia|]. intros Hi. destruct (Hadr _ Hi) as (r' & c' & B1 & B2 & Eq). lia.
    + apply H1. apply Hin; lia.
Qed.

Lemma tile88_spec r0 c0 (P : Z -> Z -> Prop) log : 
  0 <= r0 -> r0 + 8 <= rows -> 0 <= c0 -> c0 + 8 <= cols ->
  (forall r c, P r c -> ~ in_rect (r0 + row0) (r0 + row0 + 8) (c0 + col0) (c0 + col0 + 8) r c) ->
  covers ent P log ->
  exists log',
    (let* buf := for_step 0 8 4 (fun cx buf =>
       let* l := block 8 4 (mk_map 0 8 8 8 ColMajor) r0 (c0 + cx) (r0 + row0) (c0 + cx + col0) 0 cx in perform l buf) (local_buf 64 junk) in
     let* l := store88 buf (r0 + row0) (c0 + col0) in
     Some (log ++ l)) = Some log' /\
    covers ent (fun r c => P r c \/ in_rect (r0 + row0) (r0 + row0 + 8) (c0 + col0) (c0 + col0 + 8) r c) log'.
Proof.
  intros Hr0 HrR Hc0 HcC HD HP. rewrite for_0_8_4.
  destruct (buf_step r0 c0 0 (local_buf 64 junk)) as (buf1 & E1 & B1); try lia.
  { split; [|intros; lia]. intros a Ha. unfold local_buf. replace ((0 <=? a) && (a <? 64)) with true by lia. eauto. }
  rewrite E1. cbn [bind].
  destruct (buf_step r0 c0 4 buf1) as (buf2 & E2 & B2); try lia; [exact B1|].
  rewrite E2. cbn [bind].
  destruct (H88 buf2 (fun r c => out (row0 + (r0 + r)) (col0 + (c0 + c))) (r0 + row0) (c0 + col0)) as (l & -> & Hl).
  { intros i j Hi Hj. split; [apply B2; lia|apply HQ; lia]. }
  cbn [bind]. eexists. split; [reflexivity|]. apply covers_app; [exact HD|exact HP|].
  refine (covers_shift _ _ _ _ _ _ _ Hl). intros i j Hi Hj. unfold ent. f_equal. f_equal; lia.
Qed.

Definition strip (c r w : Z) (rr cc : Z) : Prop :=
  in_rect row0 (row0 + rows) col0 (col0 + c) rr cc \/
  in_rect row0 (row0 + r) (col0 + c) (col0 + c + w) rr cc.

Lemma tile_strip R C W c0 r0 j log : tile_shape R C ->
  0 <= r0 -> r0 + R <= rows -> 0 <= c0 -> 0 <= j -> j + C <= W -> c0 + W <= cols ->
  covers ent (fun r c => strip c0 r0 W r c \/ in_rect (row0 + r0) (row0 + r0 + R) (col0 + c0) (col0 + c0 + j) r c) log ->
  exists log', (let* l := block R C dst r0 (c0 + j) (r0 + row0) (c0 + j + col0) (r0 + row0) (c0 + j + col0) in Some (log ++ l)) = Some log' /\
  covers ent (fun r c => strip c0 r0 W r c \/ in_rect (row0 + r0) (row0 + r0 + R) (col0 + c0) (col0 + c0 + (j + C)) r c) log'.
Proof.
  intros HRC Hr0 HrR Hc0 Hj HjC HcW HI. assert (0 < R /\ 0 < C) as [HR HC] by (unfold tile_shape in HRC; lia).
  destruct (fun h => tile_spec R C r0 (c0 + j) _ log HRC Hr0 HrR ltac:(lia) ltac:(lia) h HI) as (log' & E & Hc).
  - intros r c. unfold strip, in_rect. lia.
  - exists log'. split; [exact E|]. eapply covers_ext; [|exact Hc]. intros r c. unfold strip, in_rect. lia.
Qed.

Lemma UnpackTiles_spec_aux :
  let tile R C r c log :=
    let* l := block R C dst r c (r + row0) (c + col0) (r + row0) (c + col0) in
    Some (log ++ l) in
  exists log,
  (let* (c8, log) :=
    match mm_order dst with
    | RowMajor =>
        for_ix 0 (cols - 8 + 1) 8 (fun c8 log =>
          row_loops rows
            (fun r log =>
               let dst_colmajor_buf := local_buf 64 junk in
               let dst_colmajor_map := mk_map 0 8 8 8 ColMajor in
               let* buf :=
                 for_step 0 8 4 (fun cx buf =>
                   let c := c8 + cx in
                   let* l := block 8 4 dst_colmajor_map r c (r + row0) (c + col0) 0 cx in
                   perform l buf) dst_colmajor_buf in
               let* l := store88 buf (r + row0) (c8 + col0) in
               Some (log ++ l))
            (fun r log => for_step 0 8 4 (fun cx log => tile 4 4 r (c8 + cx) log) log)
            (fun r log => for_step 0 8 4 (fun cx log => tile 1 4 r (c8 + cx) log) log) log) []
    | ColMajor => Some (0, [])
    end in
  let* (c, log) :=
    for_ix c8 (cols - 4 + 1) 4 (fun c log =>
      row_loops rows (fun r log => tile 8 4 r c log) (fun r log => tile 4 4 r c log)
        (fun r log => tile 1 4 r c log) log) log in
  let* (_, log) :=
    for_ix c cols 1 (fun c log =>
      row_loops rows (fun r log => tile 8 1 r c log) (fun r log => tile 4 1 r c log)
        (fun r log => tile 1 1 r c log) log) log in
  Some log) = Some log /\ covers ent (in_rect row0 (row0 + rows) col0 (col0 + cols)) log.
Proof.
  intros tile.
  set (I := fun c log => covers ent (in_rect row0 (row0 + rows) col0 (col0 + c)) log).
  assert (Hfour : forall R r0 c0 log, (R = 4 \/ R = 1) -> 0 <= r0 -> r0 + R <= rows -> 0 <= c0 -> c0 + 8 <= cols ->
     covers ent (strip c0 r0 8) log ->
     exists log', for_step 0 8 4 (fun cx log => tile R 4 r0 (c0 + cx) log) log = Some log' /\
        covers ent (strip c0 (r0 + R) 8) log').
  { intros R r0 c0 log HR Hr0 HrR Hc0 HcC HI. rewrite for_0_8_4. unfold tile.
    destruct (tile_strip R 4 8 c0 r0 0 log) as (l1 & E1 & C1); try (unfold tile_shape in *; lia).
    { eapply covers_ext; [|exact HI]. intros r c. unfold strip, in_rect. lia. }
    rewrite E1. cbn [bind].
    destruct (tile_strip R 4 8 c0 r0 4 l1) as (l2 & E2 & C2); try (unfold tile_shape in *; lia); [exact C1|].
    rewrite E2. exists l2. split; [reflexivity|]. eapply covers_ext; [|exact C2]. intros r c. unfold strip, in_rect. lia. }
  assert (Hone : forall R C r0 c0 log, tile_shape R C -> 0 <= r0 -> r0 + R <= rows -> 0 <= c0 -> c0 + C <= cols ->
     covers ent (strip c0 r0 C) log ->
     exists log', tile R C r0 c0 log = Some log' /\ covers ent (strip c0 (r0 + R) C) log').
  { intros R C r0 c0 log HRC Hr0 HrR Hc0 HcC HI. assert (0 < R /\ 0 < C) as [HR HC] by (unfold tile_shape in HRC; lia). unfold tile.
    destruct (tile_strip R C C c0 r0 0 log) as (l1 & E1 & C1); try (unfold tile_shape in *; lia).
    { eapply covers_ext; [|exact HI]. intros r c. unfold strip, in_rect. lia. }
    rewrite Z.add_0_r in E1. rewrite E1. exists l1. split; [reflexivity|].
    eapply covers_ext; [|exact C1]. intros r c. unfold strip, in_rect. lia. }
  assert (Hstart : forall c W log, I c log -> covers ent (strip c 0 W) log).
  { intros c W log HI. eapply covers_ext; [|exact HI]. intros r cc. unfold strip, in_rect. lia. }
  assert (Hend : forall c W log, 0 < W -> 0 <= c -> covers ent (strip c rows W) log -> I (c + W) log).
  { intros c W log HW Hc HI. unfold I. eapply covers_ext; [|exact HI]. intros r cc. unfold strip, in_rect. lia. }
  assert (H0 : I 0 []).
  { unfold I. apply covers_nil. intros r c. unfold in_rect. lia. }
  assert (Hgrp8 : exists c8 log8, 
    match mm_order dst with
    | RowMajor =>
        for_ix 0 (cols - 8 + 1) 8 (fun c8 log =>
          row_loops rows
            (fun r log =>
               let dst_colmajor_buf := local_buf 64 junk in
               let dst_colmajor_map := mk_map 0 8 8 8 ColMajor in
               let* buf :=
                 for_step 0 8 4 (fun cx buf =>
                   let c := c8 + cx in
                   let* l := block 8 4 dst_colmajor_map r c (r + row0) (c + col0) 0 cx in
                   perform l buf) dst_colmajor_buf in
               let* l := store88 buf (r + row0) (c8 + col0) in
               Some (log ++ l))
            (fun r log => for_step 0 8 4 (fun cx log => tile 4 4 r (c8 + cx) log) log)
            (fun r log => for_step 0 8 4 (fun cx log => tile 1 4 r (c8 + cx) log) log) log) []
    | ColMajor => Some (0, [])
    end = Some (c8, log8) /\ I c8 log8 /\ 0 <= c8 <= cols).
  { destruct (mm_order dst).
    - exists 0, []. split; [reflexivity|]. split; [exact H0|lia].
    - match goal with |- context [for_ix 0 ?st 8 ?bd ?s0] =>
        destruct (for_ix_inv I 0 st 8 bd s0) as (c8 & log8 & E & HI & B1 & B2 & B3) end; [lia| |exact H0|].
      + intros c8 log Hc8 _ Hlt HI. cbv beta.
        match goal with |- exists s', row_loops rows ?b8 ?b4 ?b1 log = _ /\ _ =>
          destruct (row_loops_spec (fun r log => covers ent (strip c8 r 8) log) rows b8 b4 b1 log) as (log' & E & HI') end.
        * exact Hrows.
        * apply Hstart. exact HI.
        * intros r0 l Hr0 HrR HIr. cbv zeta.
          destruct (fun h => tile88_spec r0 c8 _ l Hr0 HrR Hc8 ltac:(lia) h HIr) as (l' & El & Cl).
          { intros r c. unfold strip, in_rect. lia. }
          exists l'. split; [exact El|]. eapply covers_ext; [|exact Cl]. intros r c. unfold strip, in_rect. lia.
        * intros r0 l Hr0 HrR HIr. apply Hfour; try assumption; lia.
        * intros r0 l Hr0 HrR HIr. apply Hfour; try assumption; lia.
        * exists log'. split; [exact E|]. apply Hend; [lia|lia|exact HI'].
      + exists c8, log8. split; [exact E|]. split; [exact HI|lia]. }
  destruct Hgrp8 as (c8 & log8 & E8 & HI8 & Hc8). rewrite E8. cbn [bind].
  match goal with |- context [for_ix c8 ?st 4 ?bd ?s0] =>
    destruct (for_ix_inv I c8 st 4 bd s0) as (c4 & log4 & E4 & HI4 & B1 & B2 & B3) end; [lia| |exact HI8|].
  { intros c log Hc _ Hlt HI. cbv beta.
    match goal with |- exists s', row_loops rows ?b8 ?b4 ?b1 log = _ /\ _ =>
      destruct (row_loops_spec (fun r log => covers ent (strip c r 4) log) rows b8 b4 b1 log) as (log' & E & HI') end.
    - exact Hrows.
    - apply Hstart. exact HI.
    - intros r0 l Hr0 HrR HIr. apply Hone; try assumption; try (unfold tile_shape); lia.
    - intros r0 l Hr0 HrR HIr. apply Hone; try assumption; try (unfold tile_shape); lia.
    - intros r0 l Hr0 HrR HIr. apply Hone; try assumption; try (unfold tile_shape); lia.
    - exists log'. split; [exact E|]. apply Hend; [lia|lia|exact HI']. }
  rewrite E4. cbn [bind].
  match goal with |- context [for_ix c4 ?st 1 ?bd ?s0] =>
    destruct (for_ix_inv I c4 st 1 bd s0) as (c1 & log1 & E1 & HI1 & D1 & D2 & D3) end; [lia| |exact HI4|].
  { intros c log Hc _ Hlt HI. cbv beta.
    match goal with |- exists s', row_loops rows ?b8 ?b4 ?b1 log = _ /\ _ =>
      destruct (row_loops_spec (fun r log => covers ent (strip c r 1) log) rows b8 b4 b1 log) as (log' & E & HI') end.
    - exact Hrows.
    - apply Hstart. exact HI.
    - intros r0 l Hr0 HrR HIr. apply Hone; try assumption; try (unfold tile_shape); lia.
    - intros r0 l Hr0 HrR HIr. apply Hone; try assumption; try (unfold tile_shape); lia.
    - intros r0 l Hr0 HrR HIr. apply Hone; try assumption; try (unfold tile_shape); lia.
    - exists log'. split; [exact E|]. apply Hend; [lia|lia|exact HI']. }
  rewrite E1. cbn [bind]. exists log1. split; [reflexivity|].
  unfold I in HI1. replace cols with c1 by lia. exact HI1.
Qed.
End Tiles.

Lemma UnpackTiles_spec block store88 junk dst blk (out : Z -> Z -> Z) (Q : Z -> Prop) :
  0 <= bb_rows blk -> 0 <= bb_cols blk ->
  (forall r c, 0 <= r < bb_rows blk -> 0 <= c < bb_cols blk -> Q (out (bb_row blk + r) (bb_col blk + c))) ->
  (forall R C d r0 c0 drow dcol, tile_shape R C ->
    0 <= r0 -> r0 + R <= bb_rows blk -> 0 <= c0 -> c0 + C <= bb_cols blk ->
    exists l, block R C d r0 c0 (r0 + bb_row blk) (c0 + bb_col blk) drow dcol = Some l /\
      covers (fun i j => (mm_addr d (drow + i) (dcol + j), out (bb_row blk + (r0 + i)) (bb_col blk + (c0 + j)))) (in_rect 0 R 0 C) l) ->
  (forall buf g r c, (forall i j, 0 <= i < 8 -> 0 <= j < 8 -> buf (i + j * 8) = Some (g i j) /\ Q (g i j)) ->
    exists l, store88 buf r c = Some l /\
      covers (fun i j => (mm_addr dst (r + i) (c + j), g i j)) (in_rect 0 8 0 8) l) ->
  exists log, UnpackTiles block store88 junk dst blk = Some log /\
    covers (ent out dst) (in_rect (bb_row blk) (bb_row blk + bb_rows blk) (bb_col blk) (bb_col blk + bb_cols blk)) log.
Proof.
  intros H1 H2 HQ Hb H88. exact (UnpackTiles_spec_aux block store88 (bb_rows blk) (bb_cols blk) (bb_row blk) (bb_col blk) out dst Q H1 H2 HQ Hb H88 junk).
Qed.

Lemma UnpackResult_spec m k junk dst blk src src_map depth lsm rsm lo ro p (A : Z -> Z -> Z) (SL SR LO RO : Z -> Z) (out : Z -> Z -> Z) :
  0 <= bb_row blk -> 0 <= bb_rows blk -> bb_row blk + bb_rows blk <= mm_rows dst ->
  0 <= bb_col blk -> 0 <= bb_cols blk -> bb_col blk + bb_cols blk <= mm_cols dst ->
  mm_order src_map = ColMajor ->
  (forall r c, 0 <= r < bb_rows blk -> 0 <= c < bb_cols blk -> src (mm_addr src_map r c) = Some (A r c)) ->
  has_shape lo VCol -> has_shape ro VRow ->
  (forall r, 0 <= r < bb_rows blk -> lsm r = Some (SL r)) ->
  (forall c, 0 <= c < bb_cols blk -> rsm c = Some (SR c)) ->
  (forall r, 0 <= r < bb_rows blk -> vec_get lo r = Some (LO r)) ->
  (forall c, 0 <= c < bb_cols blk -> vec_get ro c = Some (RO c)) ->
  (forall r c, 0 <= r < bb_rows blk -> 0 <= c < bb_cols blk ->
     exists a, unpack_at m (sf_zp (kf_lhs k)) (sf_zp (kf_rhs k)) depth (A r c) (SL r) (SR c) (LO r) (RO c) = Some a /\
       pipe_at m p (bb_row blk + r) (bb_col blk + c) a = Some (out (bb_row blk + r) (bb_col blk + c))) ->
  exists log, UnpackResult m k junk dst blk src src_map depth lsm rsm lo ro p = Some log /\
    covers (ent out dst) (in_rect (bb_row blk) (bb_row blk + bb_rows blk) (bb_col blk) (bb_col blk + bb_cols blk)) log.
Proof.
  intros H1 H2 H3 H4 H5 H6 Hcm HA Hlo Hro HSL HSR HLO HRO HU.
  unfold UnpackResult, guard.
  replace (0 <=? bb_row blk) with true by lia. replace (bb_row blk + bb_rows blk <=? mm_rows dst) with true by lia.
  replace (0 <=? bb_col blk) with true by lia. replace (bb_col blk + bb_cols blk <=? mm_cols dst) with true by lia.
  cbn [bind].
  apply (UnpackTiles_spec _ _ _ _ _ out (fun _ => True)); try assumption; [auto| |].
  - intros R C d r0 c0 drow dcol HRC Hr0 HrR Hc0 HcC. assert (0 < R /\ 0 < C) as [HR HC] by (unfold tile_shape in HRC; lia).
    rewrite (UnpackResultBlock_spec m k src src_map p (VMap VCol (mk_vmap lsm 0 (bb_rows blk))) (VMap VRow (mk_vmap rsm 0 (bb_cols blk)))
      lo ro depth (bb_rows blk) (bb_cols blk) (bb_row blk) (bb_col blk) A SL SR LO RO out) by (try assumption; reflexivity).
    eexists. split; [reflexivity|]. apply (covers_tile _ 0 0 R C); [exact HR|exact HC|].
    apply map_ext. intros i. rewrite !Z.add_0_l. reflexivity.
  - intros buf g r c Hg.
    destruct (block_init_spec 8 8 (fun r c => rd buf (r + c * 8)) g) as (b & Eb & Hb); [lia|lia| |].
    { intros i j Hi Hj. apply Hg; lia. }
    unfold LoadContiguous. rewrite Eb. cbn [bind].
    rewrite (StoreFinalOutput_spec 8 8 ltac:(lia) ltac:(lia) b _ dst r c Hb).
    eexists. split; [reflexivity|]. apply (covers_tile _ 0 0 8 8); [lia|lia|].
    apply map_ext. intros i. rewrite !Z.add_0_l. reflexivity.
Qed.
