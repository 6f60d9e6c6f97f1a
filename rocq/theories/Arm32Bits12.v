(* Arm32Bits12.v: the blocks of the AArch32 12x4 kernel for products below 4096,
   executed symbolically *)
From Verif Require Import Base BaseLemmas CommonModel PackModel GemmSpec ComputeModel KernelSpec SimdModel SimdProofs X86Model X86Proofs X86Loop
  ArmModel ArmKernels ArmProofs ArmLoop Arm64Blocks Arm32Blocks ArmInt8 Arm64Int8.

(* ------------------------------------------------------------------ *)
(* lanes *)
Lemma get_get32 i v : wrapS 32 (get 32 i v) = get 32 i v.
Proof. apply wrapS_get. lia. Qed.
Lemma g_rot32 n imm i : 0 <= i < 4 -> get 32 i (v_rot32 n imm) = get 32 ((i + imm) mod 4) n.
Proof. intros Hi. unfold v_rot32. rewrite get_vpack by lia. apply get_get32. Qed.
Lemma g_trn1 a b i : 0 <= i < 4 -> get 32 i (v_trn1 a b) = if i mod 2 =? 0 then get 32 i a else get 32 (i - 1) b.
Proof. intros Hi. unfold v_trn1. rewrite get_vpack by lia. destruct (i mod 2 =? 0); apply get_get32. Qed.
Lemma g_trn2 a b i : 0 <= i < 4 -> get 32 i (v_trn2 a b) = if i mod 2 =? 0 then get 32 (i + 1) a else get 32 i b.
Proof. intros Hi. unfold v_trn2. rewrite get_vpack by lia. destruct (i mod 2 =? 0); apply get_get32. Qed.
Lemma g_put d h n k i : 0 <= i < 4 -> get 32 i (v_put d h n k) = if i / 2 =? h then get 32 (2 * k + i mod 2) n else get 32 i d.
Proof. intros Hi. unfold v_put. rewrite get_vpack by lia. destruct (i / 2 =? h); apply get_get32. Qed.
Lemma g_put2 d h x0 x1 i : 0 <= i < 4 -> get 32 i (v_put2 d h x0 x1) =
  if i =? 2 * h then wrapS 32 x0 else if i =? 2 * h + 1 then wrapS 32 x1 else get 32 i d.
Proof. intros Hi. unfold v_put2. rewrite get_vpack by lia. destruct (i =? 2 * h); [reflexivity|]. destruct (i =? 2 * h + 1); [reflexivity|apply get_get32]. Qed.
Lemma gu_mlalu8 d n hn m hm i : 0 <= i < 8 ->
  getU 16 i (v_mlalu8 d n hn m hm) = wrapU 16 (getU 16 i d + getU 8 (8 * hn + i) n * getU 8 (8 * hm + i) m).
Proof.
  intros Hi. unfold v_mlalu8. rewrite getU_vpack by lia. rewrite (get_getU 16 i d) by lia. unfold wrapU.
  rewrite Z.add_mod by lia. rewrite wrapS_mod by lia. rewrite <- Z.add_mod by lia. reflexivity.
Qed.
Lemma isb_rot8 n f : isb n 0 f -> isb (v_rot8 n 0 2) 0 (fun j => f ((j + 2) mod 8)).
Proof.
  intros H j Hj. unfold v_rot8. rewrite getU_vpack by lia. replace ((8 * 0 + j) / 8 =? 0) with true by lia.
  rewrite <- (H ((j + 2) mod 8)) by lia. rewrite (getU_get 8 _ n) by lia. unfold wrapU. f_equal. f_equal. f_equal. lia.
Qed.
Lemma isb_rot8_hi n f : isb n 1 f -> isb (v_rot8 n 0 2) 1 f.
Proof.
  intros H j Hj. unfold v_rot8. rewrite getU_vpack by lia. replace ((8 * 1 + j) / 8 =? 0) with false by lia.
  rewrite <- (H j Hj). rewrite (getU_get 8 _ n) by lia. reflexivity.
Qed.
(* 4x4 transposition: VTRN twice, VSWP twice *)
Definition pick4 {T} (a b c d : T) (i : Z) : T := match i with 0 => a | 1 => b | 2 => c | _ => d end.
Lemma four i : 0 <= i < 4 -> i = 0 \/ i = 1 \/ i = 2 \/ i = 3. Proof. lia. Qed.
Lemma three i : 0 <= i < 3 -> i = 0 \/ i = 1 \/ i = 2. Proof. lia. Qed.
Ltac ceqb := repeat match goal with |- context [if ?a =? ?b then _ else _] => let v := eval compute in (a =? b) in replace (a =? b) with v by reflexivity; cbv iota end.
Lemma tr4_ok0 a b c d i : 0 <= i < 4 -> get 32 i (v_put (v_trn1 a b) 1 (v_trn1 c d) 0) = get 32 0 (pick4 a b c d i).
Proof.
  intros Hi. destruct (four i Hi) as [-> | [-> | [-> | ->]]]; cbn [pick4]; rewrite g_put by lia; ceqb;
    rewrite g_trn1 by lia; ceqb; f_equal; reflexivity.
Qed.
Lemma tr4_ok1 a b c d i : 0 <= i < 4 -> get 32 i (v_put (v_trn2 a b) 1 (v_trn2 c d) 0) = get 32 1 (pick4 a b c d i).
Proof.
  intros Hi. destruct (four i Hi) as [-> | [-> | [-> | ->]]]; cbn [pick4]; rewrite g_put by lia; ceqb;
    rewrite g_trn2 by lia; ceqb; f_equal; reflexivity.
Qed.
Lemma tr4_ok2 a b c d i : 0 <= i < 4 -> get 32 i (v_put (v_trn1 c d) 0 (v_trn1 a b) 1) = get 32 2 (pick4 a b c d i).
Proof.
  intros Hi. destruct (four i Hi) as [-> | [-> | [-> | ->]]]; cbn [pick4]; rewrite g_put by lia; ceqb;
    rewrite g_trn1 by lia; ceqb; f_equal; reflexivity.
Qed.
Lemma tr4_ok3 a b c d i : 0 <= i < 4 -> get 32 i (v_put (v_trn2 c d) 0 (v_trn2 a b) 1) = get 32 3 (pick4 a b c d i).
Proof.
  intros Hi. destruct (four i Hi) as [-> | [-> | [-> | ->]]]; cbn [pick4]; rewrite g_put by lia; ceqb;
    rewrite g_trn2 by lia; ceqb; f_equal; reflexivity.
Qed.
Lemma rows_ok X0 X1 X2 X3 u t i : u = t -> 0 <= t < 4 -> 0 <= i < 4 ->
  get 32 u (pick4 (v_put (v_trn1 X0 X1) 1 (v_trn1 X2 X3) 0) (v_rot32 (v_put (v_trn2 X0 X1) 1 (v_trn2 X2 X3) 0) 1)
    (v_rot32 (v_put (v_trn1 X2 X3) 0 (v_trn1 X0 X1) 1) 2) (v_rot32 (v_put (v_trn2 X2 X3) 0 (v_trn2 X0 X1) 1) 3) i) =
  get 32 i (pick4 X0 X1 X2 X3 ((i + t) mod 4)).
Proof.
  intros -> Ht Hi.
  destruct (four i Hi) as [-> | [-> | [-> | ->]]]; cbn [pick4].
  - rewrite tr4_ok0 by lia. f_equal. f_equal. lia.
  - rewrite g_rot32 by lia. rewrite tr4_ok1 by lia. f_equal. f_equal. lia.
  - rewrite g_rot32 by lia. rewrite tr4_ok2 by lia. f_equal. f_equal. lia.
  - rewrite g_rot32 by lia. rewrite tr4_ok3 by lia. f_equal. f_equal. lia.
Qed.
Lemma nth_words_lo h a b c d i : 0 <= i < 4 -> nth (Z.to_nat i) (v_words4 h a b c d) 0 = get 32 (2 * h) (pick4 a b c d i).
Proof. intros Hi. destruct (four i Hi) as [-> | [-> | [-> | ->]]]; reflexivity. Qed.
Lemma nth_words_hi h a b c d i : 0 <= i < 4 -> nth (Z.to_nat (4 + i)) (v_words4 h a b c d) 0 = get 32 (2 * h + 1) (pick4 a b c d i).
Proof. intros Hi. destruct (four i Hi) as [-> | [-> | [-> | ->]]]; reflexivity. Qed.

(* ------------------------------------------------------------------ *)
(* the local array: dword i of group t of cell rc *)
Definition lh (m : mem) (F : Z -> Z -> Z -> Z) : Prop :=
  forall rc t i, 0 <= rc < 3 -> 0 <= t < 4 -> 0 <= i < 4 -> m (16 * rc + 4 * t + i) = Some (F rc t i).
Definition updW (F : Z -> Z -> Z -> Z) (rc t : Z) (v : reg) : Z -> Z -> Z -> Z :=
  fun rc' t' i => if (rc' =? rc) && (t' =? t) then get 32 i v else F rc' t' i.
Definition upd8 (F : Z -> Z -> Z -> Z) (rc t : Z) (l : list Z) : Z -> Z -> Z -> Z :=
  fun rc' t' i => if (rc' =? rc) && (t' =? t) then nth (Z.to_nat i) l 0
                  else if (rc' =? rc) && (t' =? t + 1) then nth (Z.to_nat (4 + i)) l 0 else F rc' t' i.
Lemma lh_store m F x v : lh m F -> x mod 16 = 0 -> 0 <= x <= 176 ->
  v_store 4 m x v <> None /\ lh (t_store 4 m x v) (updW F (x / 64) (x mod 64 / 16) v).
Proof.
  intros H H1 H2. set (rc := x / 64). set (t := x mod 64 / 16).
  assert (Hrc : 0 <= rc < 3) by (unfold rc; lia). assert (Ht : 0 <= t < 4) by (unfold t; lia).
  assert (Ex : x = 4 * (16 * rc + 4 * t)) by (unfold rc, t; lia). clearbody rc t. subst x.
  destruct (v_store_ok 4 m (16 * rc + 4 * t) v) as [S1 S2].
  { intros j Hj. rewrite (H rc t j) by lia. discriminate. }
  split; [exact S1|]. intros rc' t' i Hrc' Ht' Hi. rewrite S2. unfold updW.
  destruct (Z.eqb_spec rc' rc) as [-> | N1]; [destruct (Z.eqb_spec t' t) as [-> | N2]|]; cbn [andb].
  - replace ((_ <=? _) && _) with true by lia. f_equal. f_equal. lia.
  - replace ((_ <=? _) && _) with false by lia. now apply H.
  - replace ((_ <=? _) && _) with false by lia. now apply H.
Qed.
Lemma lh_store8 m F x l : lh m F -> x mod 32 = 0 -> 0 <= x <= 160 -> length l = 8%nat ->
  store8w m x l <> None /\ lh (t_store8w m x l) (upd8 F (x / 64) (x mod 64 / 16) l).
Proof.
  intros H H1 H2 Hl. set (rc := x / 64). set (t := x mod 64 / 16).
  assert (Hrc : 0 <= rc < 3) by (unfold rc; lia). assert (Ht : 0 <= t < 3) by (unfold t; lia).
  assert (Ex : x = 4 * (16 * rc + 4 * t)) by (unfold rc, t; lia). clearbody rc t. subst x.
  unfold t_store8w, store8w. replace ((4 * (16 * rc + 4 * t)) mod 4 =? 0) with true by lia. cbn [guard bind].
  replace (4 * (16 * rc + 4 * t) / 4) with (16 * rc + 4 * t) by lia.
  destruct (store_cells_ok l m (16 * rc + 4 * t)) as (m' & E & Hm').
  { intros j Hj. rewrite Hl in Hj. replace (16 * rc + 4 * t + j) with (16 * rc + 4 * (t + j / 4) + j mod 4) by lia.
    rewrite (H rc (t + j / 4) (j mod 4)) by lia. discriminate. }
  rewrite E. split; [discriminate|]. intros rc' t' i Hrc' Ht' Hi. rewrite Hm', Hl. unfold upd8.
  destruct (Z.eqb_spec rc' rc) as [-> | N1]; cbn [andb].
  - destruct (Z.eqb_spec t' t) as [-> | N2]; [|destruct (Z.eqb_spec t' (t + 1)) as [-> | N3]].
    + replace ((_ <=? _) && _) with true by lia. f_equal. f_equal. lia.
    + replace ((_ <=? _) && _) with true by lia. f_equal. f_equal. lia.
    + replace ((_ <=? _) && _) with false by lia. now apply H.
  - replace ((_ <=? _) && _) with false by lia. now apply H.
Qed.
Lemma lh_load m F x : lh m F -> x mod 16 = 0 -> 0 <= x <= 176 ->
  v_load 4 m x <> None /\ forall i, 0 <= i < 4 -> get 32 i (t_load 4 m x) = wrapS 32 (F (x / 64) (x mod 64 / 16) i).
Proof.
  intros H H1 H2. set (rc := x / 64). set (t := x mod 64 / 16).
  assert (Hrc : 0 <= rc < 3) by (unfold rc; lia). assert (Ht : 0 <= t < 4) by (unfold t; lia).
  assert (Ex : x = 4 * (16 * rc + 4 * t)) by (unfold rc, t; lia). clearbody rc t. subst x.
  apply (t_load_ok 4 m _ (F rc t)). intros j Hj. apply H; lia.
Qed.
Lemma lh_load8 m F x : lh m F -> x mod 32 = 0 -> 0 <= x <= 160 ->
  load8w m x <> None /\ forall j, 0 <= j < 8 -> nth (Z.to_nat j) (t_load8w m x) 0 = F (x / 64) (x mod 64 / 16 + j / 4) (j mod 4).
Proof.
  intros H H1 H2. set (rc := x / 64). set (t := x mod 64 / 16).
  assert (Hrc : 0 <= rc < 3) by (unfold rc; lia). assert (Ht : 0 <= t < 3) by (unfold t; lia).
  assert (Ex : x = 4 * (16 * rc + 4 * t)) by (unfold rc, t; lia). clearbody rc t. subst x.
  unfold t_load8w, load8w. replace ((4 * (16 * rc + 4 * t)) mod 4 =? 0) with true by lia. cbn [guard bind].
  replace (4 * (16 * rc + 4 * t) / 4) with (16 * rc + 4 * t) by lia.
  rewrite (load_cells_ok m (16 * rc + 4 * t) 8 (fun j => F rc (t + j / 4) (j mod 4))).
  - split; [discriminate|]. intros j Hj. now rewrite (nth_map_seq (fun j => F rc (t + j / 4) (j mod 4))) by lia.
  - intros j Hj. rewrite <- H by lia. f_equal. lia.
Qed.

#[local] Opaque t_cells t_load t_store t_load8w t_store8w load_cells v_load v_store load8w store8w vec_of v_words4
  v_movl v_mlal16 v_mull8 v_mlal8 v_mlalu8 v_padal v_padalu v_addp v_paddD v_paddd v_udot v_set8 v_rot8 v_rot32 v_trn1 v_trn2 v_put v_put2.
Ltac symex := lazy [arun astepT nth_error app fst snd avget avset agset afset amem amset as_v as_g as_f as_dst as_loc nth set_nth
  aget aset aoff_of acond_holds f_eq f_ge a_lhs a_rhs a_dst a_run a_start a_stride a_r0 a_r1
  NEON_32_Kernel12x4Depth2Assuming12BitProducts_asm].

(* the sum over the levels, even and odd levels apart *)
Lemma sumZ_eo f D n : 0 <= n ->
  sumZ f D (D + 2 * n) = sumZ (fun e => f (D + 2 * e + 0)) 0 n + sumZ (fun e => f (D + 2 * e + 1)) 0 n.
Proof.
  revert n. apply (natlike_ind (fun n => sumZ f D (D + 2 * n) = sumZ (fun e => f (D + 2 * e + 0)) 0 n + sumZ (fun e => f (D + 2 * e + 1)) 0 n)).
  - rewrite !sumZ_empty by lia. reflexivity.
  - intros n Hn IH. replace (D + 2 * Z.succ n) with (D + 2 * n + 1 + 1) by lia. rewrite !sumZ_last by lia. rewrite IH.
    unfold Z.succ. rewrite !sumZ_last by lia. replace (D + 2 * n + 0) with (D + 2 * n) by lia. lia.
Qed.

Section K12b.
Variables (lhs rhs : mem) (lp0 rp0 run dst start cs : Z) (res : mem) (A B old : Z -> Z -> Z).
Hypothesis HA : holds_run (mk_side_fmt 4 2 CWidthMajor 3 FUint8) lhs lp0 run A.
Hypothesis HB : holds_run (mk_side_fmt 4 2 CWidthMajor 1 FUint8) rhs rp0 run B.
Hypothesis Hinj : forall r c r' c', 0 <= r < 3 * 4 -> 0 <= c < 4 -> 0 <= r' < 3 * 4 -> 0 <= c' < 4 ->
  r * 1 + c * cs = r' * 1 + c' * cs -> r = r' /\ c = c'.
Hypothesis Hold : forall r c, 0 <= r < 3 * 4 -> 0 <= c < 4 -> res (dst + (r * 1 + c * cs)) = Some (old r c).
Notation prog := NEON_32_Kernel12x4Depth2Assuming12BitProducts_asm.
Notation base := (base_of start old).
Notation cL := (cellW 4 2 3 FUint8 lhs lp0).
Notation cR := (cellW 4 2 1 FUint8 rhs rp0).
Definition K12b_regs (x0 x1 x2 x3 : reg) (L : Z -> Z -> reg) : list reg :=
  [x0; x1; x2; x3; L 0 0; L 0 1; L 0 2; L 0 3; L 1 0; L 1 1; L 1 2; L 1 3; L 2 0; L 2 1; L 2 2; L 2 3].
(* the products of level 2*(dc+e)+h summed up by lane 2i+h of the group t of cell rc *)
Definition part (dc r c h n : Z) : Z := sumZ (fun e => A r (2 * dc + 2 * e + h) * B c (2 * dc + 2 * e + h)) 0 n.
Definition lok (L : Z -> Z -> reg) (dc n : Z) : Prop :=
  forall rc t i h, 0 <= rc < 3 -> 0 <= t < 4 -> 0 <= i < 4 -> 0 <= h < 2 ->
    getU 16 (2 * i + h) (L rc t) = wrapU 16 (part dc (4 * rc + i) ((i + t) mod 4) h n).
Definition K12b_blk (dc n : Z) (lm : mem) (s : astate) : Prop :=
  exists x0 x1 x2 x3 t0 t1 fl L,
    s = mk_as (K12b_regs x0 x1 x2 x3 L)
          (mk_ag (lp0 + (dc + n) * 24) (rp0 + (dc + n) * 8) (4 * dst) (run - 2 * (dc + n)) start (cs * 4) t0 t1) fl res lm /\
    lok L dc n.
Definition K12b_next (X0 X1 X2 X3 q : reg) (L : Z -> Z -> reg) (rc t : Z) : reg :=
  v_mlalu8 (L rc t) (sel3 (pick4 X0 X1 X2 X3 t) q q rc) (sel3 1 0 1 rc) (pick4 X0 X1 X2 X3 t) 0.
Lemma opv x : operand_value (kind_signed FUint8) x = x. Proof. reflexivity. Qed.
Lemma K12b_next_ok X q L dc n : 0 <= dc -> 0 <= n -> 2 * (dc + n + 1) <= run ->
  isb X 0 (cR (dc + n) 0) -> isb X 1 (cL (dc + n) 0) -> isb q 0 (cL (dc + n) 1) -> isb q 1 (cL (dc + n) 2) ->
  lok L dc n ->
  lok (K12b_next X (v_rot8 X 0 2) (v_rot8 (v_rot8 X 0 2) 0 2) (v_rot8 (v_rot8 (v_rot8 X 0 2) 0 2) 0 2) q L) dc (n + 1).
Proof.
  intros Hd Hn Hr R0 E0 E1 E2 HL rc t i h Hrc Ht Hi Hh. unfold K12b_next.
  rewrite gu_mlalu8 by lia. rewrite (HL rc t i h) by assumption. unfold part. rewrite sumZ_last by lia.
  assert (Q1 : forall t, 0 <= t < 4 -> isb (pick4 X (v_rot8 X 0 2) (v_rot8 (v_rot8 X 0 2) 0 2) (v_rot8 (v_rot8 (v_rot8 X 0 2) 0 2) 0 2) t) 1 (cL (dc + n) 0)).
  { intros u Hu. destruct (four u Hu) as [-> | [-> | [-> | ->]]]; cbn [pick4]; repeat apply isb_rot8_hi; exact E0. }
  assert (Q0 : forall t j, 0 <= t < 4 -> 0 <= j < 8 -> getU 8 (8 * 0 + j) (pick4 X (v_rot8 X 0 2) (v_rot8 (v_rot8 X 0 2) 0 2) (v_rot8 (v_rot8 (v_rot8 X 0 2) 0 2) 0 2) t) = cR (dc + n) 0 ((j + 2 * t) mod 8)).
  { intros u j Hu Hj. destruct (four u Hu) as [-> | [-> | [-> | ->]]]; cbn [pick4].
    - rewrite (R0 j Hj). f_equal. lia.
    - rewrite (isb_rot8 _ _ R0 j Hj). reflexivity.
    - rewrite (isb_rot8 _ _ (isb_rot8 _ _ R0) j Hj). f_equal. lia.
    - rewrite (isb_rot8 _ _ (isb_rot8 _ _ (isb_rot8 _ _ R0)) j Hj). f_equal. lia. }
  rewrite (Q0 t (2 * i + h)) by lia.
  assert (QL : getU 8 (8 * sel3 1 0 1 rc + (2 * i + h)) (sel3 (pick4 X (v_rot8 X 0 2) (v_rot8 (v_rot8 X 0 2) 0 2) (v_rot8 (v_rot8 (v_rot8 X 0 2) 0 2) 0 2) t) q q rc)
    = cL (dc + n) rc (2 * i + h)).
  { destruct (three rc Hrc) as [-> | [-> | ->]]; [apply Q1|apply E1|apply E2]; lia. }
  rewrite QL. clear QL Q0 Q1.
  rewrite <- (opv (cL (dc + n) rc (2 * i + h))), <- (opv (cR (dc + n) 0 _)).
  rewrite (proj2 (proj2 (cellW_ok 4 2 3 FUint8 lhs lp0 run A ltac:(lia) ltac:(lia) HA (dc + n) rc (2 * i + h) ltac:(lia) ltac:(lia) ltac:(lia) ltac:(lia)))).
  rewrite (proj2 (proj2 (cellW_ok 4 2 1 FUint8 rhs rp0 run B ltac:(lia) ltac:(lia) HB (dc + n) 0 ((2 * i + h + 2 * t) mod 8) ltac:(lia) ltac:(lia) ltac:(lia) ltac:(lia)))).
  unfold wrapU. rewrite Z.add_mod_idemp_l by lia. f_equal. f_equal. f_equal; f_equal; lia.
Qed.
Ltac ldL dc rc h := eapply (ld8W 4 2 3 FUint8 lhs lp0 run A _ dc rc 0 h); [lia|lia|exact HA|lia..].
Ltac ldR dc := eapply (ld8W 4 2 1 FUint8 rhs rp0 run B _ dc 0 0 0); [lia|lia|exact HB|lia..].
Lemma isb_ext x h f g : isb x h f -> (forall j, 0 <= j < 8 -> f j = g j) -> isb x h g.
Proof. intros H E j Hj. rewrite (H j Hj). now apply E. Qed.
Definition K12b_pcs : list nat := map (fun t => (404 - 20 * t)%nat) (seq 1 16).
Lemma K12b_block pc dc n lm s : In pc K12b_pcs -> K12b_blk dc n lm s -> 0 <= dc -> 0 <= n -> 2 * (dc + n + 1) <= run ->
  exists s', asteps 20 lhs rhs prog pc s = Some ((pc + 20)%nat, s') /\ K12b_blk dc (n + 1) lm s'.
Proof.
  intros Hpc (x0 & x1 & x2 & x3 & t0 & t1 & fl & L & -> & HL) Hd Hn Hr.
  destruct (ld8W 4 2 3 FUint8 lhs lp0 run A (lp0 + (dc + n) * 24 + 0) (dc + n) 0 0 1) as [O0 C0]; [lia|lia|exact HA|lia..|].
  destruct (ld8W 4 2 3 FUint8 lhs lp0 run A (lp0 + (dc + n) * 24 + 8 + 0) (dc + n) 1 0 0) as [O1 C1]; [lia|lia|exact HA|lia..|].
  destruct (ld8W 4 2 3 FUint8 lhs lp0 run A (lp0 + (dc + n) * 24 + 8 + 8 + 0) (dc + n) 2 0 1) as [O2 C2]; [lia|lia|exact HA|lia..|].
  destruct (ld8W 4 2 1 FUint8 rhs rp0 run B (rp0 + (dc + n) * 8 + 0) (dc + n) 0 0 0) as [OR CR]; [lia|lia|exact HB|lia..|].
  set (X := v_set8 false (v_set8 false x0 1 (t_cells lhs (lp0 + (dc + n) * 24 + 0) 8)) 0 (t_cells rhs (rp0 + (dc + n) * 8 + 0) 8)).
  set (q := v_set8 false (v_set8 false x1 0 (t_cells lhs (lp0 + (dc + n) * 24 + 8 + 0) 8)) 1 (t_cells lhs (lp0 + (dc + n) * 24 + 8 + 8 + 0) 8)).
  assert (HN := K12b_next_ok X q L dc n Hd Hn Hr).
  assert (HN' : lok (K12b_next X (v_rot8 X 0 2) (v_rot8 (v_rot8 X 0 2) 0 2) (v_rot8 (v_rot8 (v_rot8 X 0 2) 0 2) 0 2) q L) dc (n + 1)).
  { apply HN; [apply CR|apply isb_set8_other; [lia|lia|apply C0]|apply isb_set8_other; [lia|lia|apply C1]|apply C2|exact HL]. }
  clear HN HL.
  exists (mk_as (K12b_regs (v_rot8 (v_rot8 (v_rot8 X 0 2) 0 2) 0 2) q x2 x3 (K12b_next X (v_rot8 X 0 2) (v_rot8 (v_rot8 X 0 2) 0 2) (v_rot8 (v_rot8 (v_rot8 X 0 2) 0 2) 0 2) q L))
    (mk_ag (lp0 + (dc + n) * 24 + 8 + 8 + 8) (rp0 + (dc + n) * 8 + 8) (4 * dst) (run - 2 * (dc + n) - 2) start (cs * 4) t0 t1) fl res lm).
  split.
  - assert (OB : all_of [load_cells lhs (lp0 + (dc + n) * 24 + 0) 8 <> None; load_cells lhs (lp0 + (dc + n) * 24 + 8 + 0) 8 <> None;
      load_cells lhs (lp0 + (dc + n) * 24 + 8 + 8 + 0) 8 <> None; load_cells rhs (rp0 + (dc + n) * 8 + 0) 8 <> None]).
    { cbn [all_of]. tauto. }
    eapply arun_sound; [|exact OB].
    cbn in Hpc. repeat destruct Hpc as [<- | Hpc]; [..|tauto]; unfold K12b_regs; symex; reflexivity.
  - exists (v_rot8 (v_rot8 (v_rot8 X 0 2) 0 2) 0 2), q, x2, x3, t0, t1, fl. eexists. split; [|exact HN'].
    apply mk_as_eq; try reflexivity. apply mk_ag_eq; try reflexivity; lia.
Qed.
Lemma K12b_blocks q : forall dc n lm s, (q <= 16)%nat -> K12b_blk dc n lm s -> 0 <= dc -> 0 <= n -> 2 * (dc + n + Z.of_nat q) <= run ->
  exists s', asteps (q * 20) lhs rhs prog (404 - 20 * q) s = Some (404%nat, s') /\ K12b_blk dc (n + Z.of_nat q) lm s'.
Proof.
  induction q as [|q IH]; intros dc n lm s Hq Hs Hd Hn Hr.
  - exists s. split; [reflexivity|]. now rewrite Z.add_0_r.
  - destruct (K12b_block (404 - 20 * S q) dc n lm s) as (s1 & E1 & H1); try assumption; try lia.
    { unfold K12b_pcs. apply in_map_iff. exists (S q). split; [reflexivity|]. apply in_seq. lia. }
    destruct (IH dc (n + 1) lm s1) as (s2 & E2 & H2); try assumption; try lia.
    exists s2. split.
    + change (S q * 20)%nat with (20 + q * 20)%nat. rewrite (asteps_app _ _ _ _ _ _ _ _ _ E1).
      replace (404 - 20 * S q + 20)%nat with (404 - 20 * q)%nat by lia. exact E2.
    + replace (n + Z.of_nat (S q)) with (n + 1 + Z.of_nat q) by lia. exact H2.
Qed.
(* the local 16-bit sums are added to the local array, cell by cell *)
Ltac cifs := repeat match goal with |- context [if ?b then _ else _] => let v := eval compute in b in
  lazymatch v with true => idtac | false => idtac end; replace b with v by reflexivity; cbv iota end.
Definition padF (c0 : Z) (L : Z -> Z -> reg) (F : Z -> Z -> Z -> Z) : Z -> Z -> Z -> Z :=
  fun rc t i => if rc =? c0 then wrapS 32 (wrapS 32 (F rc t i) + (getU 16 (2 * i) (L rc t) + getU 16 (2 * i + 1) (L rc t))) else F rc t i.
Lemma lh_ext m F G : lh m F -> (forall rc t i, 0 <= rc < 3 -> 0 <= t < 4 -> 0 <= i < 4 -> F rc t i = G rc t i) -> lh m G.
Proof. intros H E rc t i Hrc Ht Hi. rewrite H by assumption. now rewrite E by assumption. Qed.
Lemma lh_st1 m F x v : lh m F -> x mod 16 = 0 -> 0 <= x <= 176 -> v_store 4 m x v <> None.
Proof. intros. now apply (lh_store m F x v). Qed.
Lemma lh_st2 m F x v : lh m F -> x mod 16 = 0 -> 0 <= x <= 176 -> lh (t_store 4 m x v) (updW F (x / 64) (x mod 64 / 16) v).
Proof. intros. now apply (lh_store m F x v). Qed.
Lemma lh_ld1 m F x : lh m F -> x mod 16 = 0 -> 0 <= x <= 176 -> v_load 4 m x <> None.
Proof. intros. now apply (lh_load m F x). Qed.
Ltac lhm H := lazymatch goal with |- lh (t_store 4 _ _ _) _ => eapply lh_st2; [lhm H|reflexivity|lia] | |- _ => exact H end.
Ltac padobl H := cbn [all_of]; repeat apply conj;
  lazymatch goal with |- v_load _ _ _ <> None => eapply lh_ld1; [lhm H|reflexivity|lia] | |- v_store _ _ _ _ <> None => eapply lh_st1; [lhm H|reflexivity|lia] | |- _ => exact I end.
Lemma K12b_padal c0 pc x0 x1 x2 x3 L g0 g1 g2 g3 g4 g5 fl lm F :
  In (c0, pc) [(0, 406%nat); (1, 418%nat); (2, 430%nat)] -> lh lm F ->
  exists y0 y1 y2 y3 lm',
    asteps 12 lhs rhs prog pc (mk_as (K12b_regs x0 x1 x2 x3 L) (mk_ag g0 g1 g2 g3 g4 g5 (64 * c0) (64 * c0)) fl res lm) =
      Some ((pc + 12)%nat, mk_as (K12b_regs y0 y1 y2 y3 L) (mk_ag g0 g1 g2 g3 g4 g5 (64 * (c0 + 1)) (64 * (c0 + 1))) fl res lm') /\
    lh lm' (padF c0 L F).
Proof.
  intros Hin Hlm. cbn [In] in Hin.
  repeat destruct Hin as [Hin | Hin]; [injection Hin as <- <-..|tauto]; do 5 eexists.
  all: split; [etransitivity; [eapply arun_sound; [unfold K12b_regs; symex; reflexivity|]|]|].
  all: [> padobl Hlm | reflexivity | | padobl Hlm | reflexivity | | padobl Hlm | reflexivity | ].
  all: eapply lh_ext; [lhm Hlm|].
  all: intros rc t i Hrc Ht Hi; destruct (three rc Hrc) as [-> | [-> | ->]]; destruct (four t Ht) as [-> | [-> | [-> | ->]]];
    unfold updW, padF; cifs; try reflexivity.
  all: rewrite g_padalu by exact Hi; match goal with H : lh ?m ?f, Hi : 0 <= ?i < 4 |- context [get 32 ?i (t_load 4 ?m ?x)] =>
    rewrite (proj2 (lh_load m f x H ltac:(reflexivity) ltac:(lia)) i Hi) end; reflexivity.
Qed.

(* what the local array holds after 2*dc levels *)
Definition wgood (W : Z -> Z -> Z) (D : Z) : Prop :=
  forall r c, 0 <= r < 12 -> 0 <= c < 4 -> 0 <= W r c <= 65025 * D /\
    ((forall d, 0 <= d < D -> A r d * B c d < 4096) -> W r c = sumZ (fun d => A r d * B c d) 0 D).
Definition K12b_inv (dc : Z) (F : Z -> Z -> Z -> Z) : Prop :=
  exists W, wgood W (2 * dc) /\
    forall rc t i, 0 <= rc < 3 -> 0 <= t < 4 -> 0 <= i < 4 ->
      F rc t i = wrapS 32 (base (4 * rc + i) ((i + t) mod 4) + W (4 * rc + i) ((i + t) mod 4)).
Lemma operands r c d : 0 <= r < 12 -> 0 <= c < 4 -> 0 <= d < run -> (2 | run) -> 0 <= A r d * B c d <= 65025.
Proof.
  intros Hr Hc Hd [q Hq].
  destruct (cellW_ok 4 2 3 FUint8 lhs lp0 run A ltac:(lia) ltac:(lia) HA (d / 2) (r / 4) (2 * (r mod 4) + d mod 2)) as (_ & R1 & E1); try lia.
  destruct (cellW_ok 4 2 1 FUint8 rhs rp0 run B ltac:(lia) ltac:(lia) HB (d / 2) 0 (2 * c + d mod 2)) as (_ & R2 & E2); try lia.
  rewrite opv in E1, E2.
  replace (4 * (r / 4) + (2 * (r mod 4) + d mod 2) / 2) with r in E1 by lia. replace (2 * (d / 2) + (2 * (r mod 4) + d mod 2) mod 2) with d in E1 by lia.
  replace (4 * 0 + (2 * c + d mod 2) / 2) with c in E2 by lia. replace (2 * (d / 2) + (2 * c + d mod 2) mod 2) with d in E2 by lia.
  rewrite E1 in R1. rewrite E2 in R2. nia.
Qed.
Lemma K12b_inv_next dc n F L : 0 <= dc -> 0 <= n <= 16 -> 2 * (dc + n) <= run -> (2 | run) -> K12b_inv dc F -> lok L dc n ->
  K12b_inv (dc + n) (padF 2 L (padF 1 L (padF 0 L F))).
Proof.
  intros Hd Hn Hr Hdiv (W & HW & HF) HL.
  exists (fun r c => W r c + (wrapU 16 (part dc r c 0 n) + wrapU 16 (part dc r c 1 n))). split.
  - intros r c Hr' Hc. destruct (HW r c Hr' Hc) as [W1 W2].
    assert (P : forall h, 0 <= h < 2 -> 0 <= part dc r c h n <= 65025 * n).
    { intros h Hh. unfold part. pose proof (sumZ_bound (fun e => A r (2 * dc + 2 * e + h) * B c (2 * dc + 2 * e + h)) 0 n 0 65025 ltac:(lia)) as Q.
      cbv beta in Q. rewrite Z.sub_0_r in Q. apply Q. intros e He. apply operands; try assumption; lia. }
    pose proof (P 0 ltac:(lia)) as P0. pose proof (P 1 ltac:(lia)) as P1. split.
    + unfold wrapU.
      pose proof (Z.mod_pos_bound (part dc r c 0 n) (2 ^ 16) ltac:(lia)). pose proof (Z.mod_pos_bound (part dc r c 1 n) (2 ^ 16) ltac:(lia)).
      pose proof (Z.mod_le (part dc r c 0 n) (2 ^ 16) ltac:(lia) ltac:(lia)). pose proof (Z.mod_le (part dc r c 1 n) (2 ^ 16) ltac:(lia) ltac:(lia)). lia.
    + intros Hs. rewrite W2 by (intros d Hdd; apply Hs; lia).
      assert (P' : forall h, 0 <= h < 2 -> part dc r c h n <= 4095 * n).
      { intros h Hh. unfold part. pose proof (sumZ_bound (fun e => A r (2 * dc + 2 * e + h) * B c (2 * dc + 2 * e + h)) 0 n 0 4095 ltac:(lia)) as Q.
        cbv beta in Q. rewrite Z.sub_0_r in Q. apply Q. intros e He. pose proof (operands r c (2 * dc + 2 * e + h) Hr' Hc ltac:(lia) Hdiv).
        pose proof (Hs (2 * dc + 2 * e + h) ltac:(lia)). lia. }
      pose proof (P' 0 ltac:(lia)). pose proof (P' 1 ltac:(lia)).
      unfold wrapU. rewrite !Z.mod_small by lia.
      rewrite (sumZ_split _ 0 (2 * dc) (2 * (dc + n))) by lia. f_equal.
      replace (2 * (dc + n)) with (2 * dc + 2 * n) by lia.
      symmetry. apply (sumZ_eo (fun d => A r d * B c d) (2 * dc) n). lia.
  - intros rc t i Hrc Ht Hi.
    pose proof (HL rc t i 0 Hrc Ht Hi ltac:(lia)) as H0. pose proof (HL rc t i 1 Hrc Ht Hi ltac:(lia)) as H1. rewrite Z.add_0_r in H0.
    transitivity (wrapS 32 (wrapS 32 (F rc t i) + (getU 16 (2 * i) (L rc t) + getU 16 (2 * i + 1) (L rc t)))).
    { unfold padF. destruct (three rc Hrc) as [-> | [-> | ->]]; reflexivity. }
    rewrite H0, H1, HF by assumption. rewrite wrapS_idem by lia. rewrite wrapS_add_l by lia. f_equal. lia.
Qed.
Definition K12b_rel (dc : Z) (s : astate) : Prop :=
  exists x0 x1 x2 x3 t0 t1 fl L lm F,
    s = mk_as (K12b_regs x0 x1 x2 x3 L)
          (mk_ag (lp0 + dc * 24) (rp0 + dc * 8) (4 * dst) (run - 2 * dc) start (cs * 4) t0 t1) fl res lm /\
    lh lm F /\ K12b_inv dc F.
Definition K12b_pc (m : Z) : nat := if m =? 0 then 444 else 63.
Lemma K12b_tail dc n lm F s : K12b_blk dc n lm s -> lh lm F -> K12b_inv dc F -> 0 <= dc -> 0 <= n <= 16 -> 2 * (dc + n) <= run -> (2 | run) ->
  exists s', asteps 40 lhs rhs prog 404 s = Some (K12b_pc (run - 2 * (dc + n)), s') /\ K12b_rel (dc + n) s'.
Proof.
  intros (x0 & x1 & x2 & x3 & t0 & t1 & fl & L & -> & HL) Hlm HF Hd Hn Hr Hdiv.
  destruct (K12b_padal 0 406 x0 x1 x2 x3 L (lp0 + (dc + n) * 24) (rp0 + (dc + n) * 8) (4 * dst) (run - 2 * (dc + n)) start (cs * 4) fl lm F ltac:(cbn; tauto) Hlm)
    as (y0 & y1 & y2 & y3 & lm1 & E1 & H1).
  destruct (K12b_padal 1 418 y0 y1 y2 y3 L (lp0 + (dc + n) * 24) (rp0 + (dc + n) * 8) (4 * dst) (run - 2 * (dc + n)) start (cs * 4) fl lm1 _ ltac:(cbn; tauto) H1)
    as (z0 & z1 & z2 & z3 & lm2 & E2 & H2).
  destruct (K12b_padal 2 430 z0 z1 z2 z3 L (lp0 + (dc + n) * 24) (rp0 + (dc + n) * 8) (4 * dst) (run - 2 * (dc + n)) start (cs * 4) fl lm2 _ ltac:(cbn; tauto) H2)
    as (w0 & w1 & w2 & w3 & lm3 & E3 & H3).
  eexists. split.
  - change 40%nat with (2 + (12 + (12 + (12 + 2))))%nat.
    etransitivity; [eapply asteps_app; eapply arun_sound; [unfold K12b_regs; symex; reflexivity|cbn [all_of]; exact I]|].
    etransitivity; [eapply asteps_app; exact E1|]. etransitivity; [eapply asteps_app; exact E2|]. etransitivity; [eapply asteps_app; exact E3|].
    etransitivity; [eapply arun_sound; [unfold K12b_regs; symex; reflexivity|cbn [all_of]; exact I]|].
    apply f_equal. apply f_equal2; [|reflexivity]. unfold K12b_pc. rewrite Z.sub_0_r. destruct (run - 2 * (dc + n) =? 0); reflexivity.
  - exists w0, w1, w2, w3. do 3 eexists. exists L, lm3. eexists. split; [reflexivity|]. split; [exact H3|]. now apply K12b_inv_next.
Qed.
Lemma lok0 dc : lok (fun _ _ => 0) dc 0.
Proof. intros rc t i h Hrc Ht Hi Hh. unfold part. rewrite sumZ_empty by lia. unfold getU. rewrite Z.shiftr_0_l. reflexivity. Qed.
(* one round: zero the local sums, at most 16 blocks, add up *)
Lemma K12b_round dc s : K12b_rel dc s -> 0 <= dc -> 2 * (dc + 1) <= run -> (2 | run) ->
  exists k n s', 1 <= n <= 16 /\ 2 * (dc + n) <= run /\ (k <= 61 + 20 * Z.to_nat n)%nat /\
    asteps k lhs rhs prog 63 s = Some (K12b_pc (run - 2 * (dc + n)), s') /\ K12b_rel (dc + n) s'.
Proof.
  intros (x0 & x1 & x2 & x3 & t0 & t1 & fl & L & lm & F & -> & Hlm & HF) Hd Hr Hdiv.
  set (m := run - 2 * dc).
  assert (G : forall k q fl', (k <= 9)%nat -> (1 <= q <= 16)%nat -> 2 * (dc + Z.of_nat q) <= run ->
    asteps (12 + k) lhs rhs prog 63 (mk_as (K12b_regs x0 x1 x2 x3 L)
          (mk_ag (lp0 + dc * 24) (rp0 + dc * 8) (4 * dst) m start (cs * 4) t0 t1) fl res lm) =
    Some ((404 - 20 * q)%nat, mk_as (K12b_regs x0 x1 x2 x3 (fun _ _ => 0))
          (mk_ag (lp0 + dc * 24) (rp0 + dc * 8) (4 * dst) m start (cs * 4) t0 t1) fl' res lm) ->
    exists k n s', 1 <= n <= 16 /\ 2 * (dc + n) <= run /\ (k <= 61 + 20 * Z.to_nat n)%nat /\
    asteps k lhs rhs prog 63 (mk_as (K12b_regs x0 x1 x2 x3 L)
          (mk_ag (lp0 + dc * 24) (rp0 + dc * 8) (4 * dst) m start (cs * 4) t0 t1) fl res lm) = Some (K12b_pc (run - 2 * (dc + n)), s') /\ K12b_rel (dc + n) s').
  { intros k q fl' Hk Hq Hrq E.
    destruct (K12b_blocks q dc 0 lm (mk_as (K12b_regs x0 x1 x2 x3 (fun _ _ => 0))
          (mk_ag (lp0 + dc * 24) (rp0 + dc * 8) (4 * dst) m start (cs * 4) t0 t1) fl' res lm)) as (s1 & E1 & H1); try lia.
    { exists x0, x1, x2, x3, t0, t1, fl', (fun _ _ => 0). split; [|apply lok0]. rewrite Z.add_0_r. reflexivity. }
    rewrite Z.add_0_l in H1.
    destruct (K12b_tail dc (Z.of_nat q) lm F s1 H1 Hlm HF Hd ltac:(lia) Hrq Hdiv) as (s2 & E2 & H2).
    exists ((12 + k) + (q * 20 + 40))%nat, (Z.of_nat q), s2. split; [lia|]. split; [lia|]. split; [lia|]. split; [|exact H2].
    rewrite (asteps_app _ _ _ _ _ _ _ _ _ E). rewrite (asteps_app _ _ _ _ _ _ _ _ _ E1). exact E2. }
  destruct (Z.leb_spec 32 m) as [C | C]; [|destruct (Z.leb_spec 24 m) as [C1 | C1]; [|destruct (Z.leb_spec 16 m) as [C2 | C2]; [|destruct (Z.leb_spec 8 m) as [C3 | C3]]]].
  - eapply (G 2%nat 16%nat); [lia|lia|lia|].
    etransitivity; [eapply asteps_app; eapply arun_sound; [unfold K12b_regs; symex; reflexivity|cbn [all_of]; exact I]|].
    etransitivity; [eapply arun_sound; [symex; reflexivity|cbn [all_of]; exact I]|]. replace (32 <=? m) with true by lia. reflexivity.
  - eapply (G (2 + 2)%nat 12%nat); [lia|lia|lia|].
    etransitivity; [eapply asteps_app; eapply arun_sound; [unfold K12b_regs; symex; reflexivity|cbn [all_of]; exact I]|].
    etransitivity; [eapply asteps_app; etransitivity; [eapply arun_sound; [symex; reflexivity|cbn [all_of]; exact I]|]|].
    { replace (32 <=? m) with false by lia. reflexivity. }
    etransitivity; [eapply arun_sound; [symex; reflexivity|cbn [all_of]; exact I]|]. replace (24 <=? m) with true by lia. reflexivity.
  - eapply (G (2 + (2 + 2))%nat 8%nat); [lia|lia|lia|].
    etransitivity; [eapply asteps_app; eapply arun_sound; [unfold K12b_regs; symex; reflexivity|cbn [all_of]; exact I]|].
    etransitivity; [eapply asteps_app; etransitivity; [eapply arun_sound; [symex; reflexivity|cbn [all_of]; exact I]|]|].
    { replace (32 <=? m) with false by lia. reflexivity. }
    etransitivity; [eapply asteps_app; etransitivity; [eapply arun_sound; [symex; reflexivity|cbn [all_of]; exact I]|]|].
    { replace (24 <=? m) with false by lia. reflexivity. }
    etransitivity; [eapply arun_sound; [symex; reflexivity|cbn [all_of]; exact I]|]. replace (16 <=? m) with true by lia. reflexivity.
  - eapply (G (2 + (2 + (2 + 2)))%nat 4%nat); [lia|lia|lia|].
    etransitivity; [eapply asteps_app; eapply arun_sound; [unfold K12b_regs; symex; reflexivity|cbn [all_of]; exact I]|].
    etransitivity; [eapply asteps_app; etransitivity; [eapply arun_sound; [symex; reflexivity|cbn [all_of]; exact I]|]|].
    { replace (32 <=? m) with false by lia. reflexivity. }
    etransitivity; [eapply asteps_app; etransitivity; [eapply arun_sound; [symex; reflexivity|cbn [all_of]; exact I]|]|].
    { replace (24 <=? m) with false by lia. reflexivity. }
    etransitivity; [eapply asteps_app; etransitivity; [eapply arun_sound; [symex; reflexivity|cbn [all_of]; exact I]|]|].
    { replace (16 <=? m) with false by lia. reflexivity. }
    etransitivity; [eapply arun_sound; [symex; reflexivity|cbn [all_of]; exact I]|]. replace (8 <=? m) with true by lia. reflexivity.
  - eapply (G (2 + (2 + (2 + (2 + 1))))%nat 1%nat); [lia|lia|lia|].
    etransitivity; [eapply asteps_app; eapply arun_sound; [unfold K12b_regs; symex; reflexivity|cbn [all_of]; exact I]|].
    etransitivity; [eapply asteps_app; etransitivity; [eapply arun_sound; [symex; reflexivity|cbn [all_of]; exact I]|]|].
    { replace (32 <=? m) with false by lia. reflexivity. }
    etransitivity; [eapply asteps_app; etransitivity; [eapply arun_sound; [symex; reflexivity|cbn [all_of]; exact I]|]|].
    { replace (24 <=? m) with false by lia. reflexivity. }
    etransitivity; [eapply asteps_app; etransitivity; [eapply arun_sound; [symex; reflexivity|cbn [all_of]; exact I]|]|].
    { replace (16 <=? m) with false by lia. reflexivity. }
    etransitivity; [eapply asteps_app; etransitivity; [eapply arun_sound; [symex; reflexivity|cbn [all_of]; exact I]|]|].
    { replace (8 <=? m) with false by lia. reflexivity. }
    etransitivity; [eapply arun_sound; [symex; reflexivity|cbn [all_of]; exact I]|]. reflexivity.
Qed.
Lemma K12b_rounds N : forall dc s, (Z.to_nat (run - 2 * dc) <= N)%nat -> K12b_rel dc s -> 0 <= dc -> 2 * dc <= run -> (2 | run) ->
  exists k s', (k <= 81 * Z.to_nat (run / 2 - dc))%nat /\ asteps k lhs rhs prog (K12b_pc (run - 2 * dc)) s = Some (444%nat, s') /\ K12b_rel (run / 2) s'.
Proof.
  induction N as [|N IH]; intros dc s HN Hs Hd Hr Hdiv.
  - exists O, s. split; [lia|]. unfold K12b_pc. replace (run - 2 * dc =? 0) with true by lia. split; [reflexivity|]. replace (run / 2) with dc by lia. exact Hs.
  - destruct (Z.eqb_spec (run - 2 * dc) 0) as [E0 | N0].
    + exists O, s. split; [lia|]. unfold K12b_pc. replace (run - 2 * dc =? 0) with true by lia. split; [reflexivity|]. replace (run / 2) with dc by lia. exact Hs.
    + assert (2 * (dc + 1) <= run) by (destruct Hdiv; lia).
      destruct (K12b_round dc s Hs Hd ltac:(lia) Hdiv) as (k1 & n & s1 & Hn & Hrn & Hk1 & E1 & H1).
      destruct (IH (dc + n) s1) as (k2 & s2 & Hk2 & E2 & H2); [lia|exact H1|lia|lia|exact Hdiv|].
      exists (k1 + k2)%nat, s2. split; [lia|]. split; [|exact H2]. unfold K12b_pc at 1. replace (run - 2 * dc =? 0) with false by lia.
      rewrite (asteps_app _ _ _ _ _ _ _ _ _ E1). exact E2.
Qed.

(* before the loop: the local array is cleared, or filled with the transposed and
   rotated result block *)
Lemma lh_st8a m F x l : lh m F -> x mod 32 = 0 -> 0 <= x <= 160 -> length l = 8%nat -> store8w m x l <> None.
Proof. intros. now apply (lh_store8 m F x l). Qed.
Lemma lh_st8b m F x l : lh m F -> x mod 32 = 0 -> 0 <= x <= 160 -> length l = 8%nat -> lh (t_store8w m x l) (upd8 F (x / 64) (x mod 64 / 16) l).
Proof. intros. now apply (lh_store8 m F x l). Qed.
Ltac lhm8 H := lazymatch goal with |- lh (t_store8w _ _ _) _ => eapply lh_st8b; [lhm8 H|reflexivity|lia|reflexivity] | |- _ => exact H end.
Lemma K12b_init0 dc0 F : start = 0 -> dc0 = 0 -> (forall rc t i, 0 <= rc < 3 -> 0 <= t < 4 -> 0 <= i < 4 -> F rc t i = 0) -> K12b_inv dc0 F.
Proof.
  intros Hs -> HF. exists (fun _ _ => 0). split.
  - intros r c Hr Hc. split; [lia|]. intros _. now rewrite sumZ_empty by lia.
  - intros rc t i Hrc Ht Hi. rewrite HF by assumption. unfold base_of. replace (start =? 0) with true by lia. reflexivity.
Qed.
Lemma K12b_init1 dc0 F : start <> 0 -> dc0 = 0 ->
  (forall rc t i, 0 <= rc < 3 -> 0 <= t < 4 -> 0 <= i < 4 -> F rc t i = wrapS 32 (old (4 * rc + i) ((i + t) mod 4))) -> K12b_inv dc0 F.
Proof.
  intros Hs -> HF. exists (fun _ _ => 0). split.
  - intros r c Hr Hc. split; [lia|]. intros _. now rewrite sumZ_empty by lia.
  - intros rc t i Hrc Ht Hi. rewrite HF by assumption. unfold base_of. replace (start =? 0) with false by lia. now rewrite Z.add_0_r.
Qed.
Lemma get0 i : get 32 i 0 = 0.
Proof. unfold get. rewrite Z.shiftr_0_l. reflexivity. Qed.
Ltac ldWb rc c := eapply (ldW 3 4 dst cs res old _ rc c); [lia|exact Hold|lia..].
Lemma K12b_start junk t0 t1 fl lm : length junk = 16%nat -> 2 <= run -> (exists F, lh lm F) ->
  exists k s, (k <= 70)%nat /\
    asteps k lhs rhs prog 0 (mk_as junk (mk_ag lp0 rp0 (4 * dst) run start cs t0 t1) fl res lm) = Some (K12b_pc (run - 2 * 0), s) /\
    K12b_rel 0 s.
Proof.
  intros Hj Hrun [F Hlm]. unfold K12b_pc. replace (run - 2 * 0 =? 0) with false by lia.
  do 16 (destruct junk as [|? junk]; [discriminate Hj|]). destruct junk; [clear Hj|discriminate Hj].
  destruct (Z.eqb_spec start 0) as [Es | Es].
  - exists (4 + 16)%nat. eexists. split; [lia|]. split.
    + etransitivity; [eapply asteps_app; etransitivity; [eapply arun_sound; [symex; reflexivity|cbn [all_of]; exact I]|]|].
      { replace (start - 0 =? 0) with true by lia. lazy [negb]. reflexivity. }
      eapply arun_sound; [symex; reflexivity|]. padobl Hlm.
    + match goal with |- context [mk_as (?a :: ?b :: ?c :: ?d :: ?l) _ _ _ _] => exists a, b, c, d; do 3 eexists; exists (fun rc0 c0 : Z => nth (Z.to_nat (4 * rc0 + c0)) l 0) end.
      do 2 eexists. split.
      { apply mk_as_eq; [reflexivity| |reflexivity|reflexivity|reflexivity]. apply mk_ag_eq; try reflexivity; lia. }
      split; [eapply lh_ext; [lhm Hlm|]|]. 2: apply (K12b_init0 0 (fun _ _ _ => 0)); [exact Es|reflexivity|reflexivity].
      intros rc t i Hrc Ht Hi; destruct (three rc Hrc) as [-> | [-> | ->]]; destruct (four t Ht) as [-> | [-> | [-> | ->]]];
        unfold updW; cifs; apply get0.
  - exists (4 + 43)%nat. eexists. split; [lia|]. split.
    + etransitivity; [eapply asteps_app; etransitivity; [eapply arun_sound; [symex; reflexivity|cbn [all_of]; exact I]|]|].
      { replace (start - 0 =? 0) with false by lia. lazy [negb]. reflexivity. }
      eapply arun_sound; [symex; reflexivity|]. cbn [all_of]. repeat apply conj; [..|exact I].
      all: [> ldWb 0 0 | ldWb 1 0 | ldWb 2 0 | ldWb 0 1 | ldWb 1 1 | ldWb 2 1
              | ldWb 0 2 | ldWb 1 2 | ldWb 2 2 | ldWb 0 3 | ldWb 1 3 | ldWb 2 3 | ..].
      all: eapply lh_st8a; [lhm8 Hlm|reflexivity|lia|reflexivity].
    + match goal with |- context [mk_as (?a :: ?b :: ?c :: ?d :: ?l) _ _ _ _] => exists a, b, c, d; do 3 eexists; exists (fun rc0 c0 : Z => nth (Z.to_nat (4 * rc0 + c0)) l 0) end.
      do 2 eexists. split.
      { apply mk_as_eq; [reflexivity| |reflexivity|reflexivity|reflexivity]. apply mk_ag_eq; try reflexivity; lia. }
      split; [eapply lh_ext; [lhm8 Hlm|]|]. 2: apply (K12b_init1 0 (fun rc t i => wrapS 32 (old (4 * rc + i) ((i + t) mod 4)))); [exact Es|reflexivity|reflexivity].
      intros rc t i Hrc Ht Hi; destruct (three rc Hrc) as [-> | [-> | ->]]; destruct (four t Ht) as [-> | [-> | [-> | ->]]];
        unfold upd8; cifs.
      all: (rewrite nth_words_lo by exact Hi) || (rewrite nth_words_hi by exact Hi).
      all: match goal with |- _ = wrapS 32 (old _ ((_ + ?t) mod 4)) => etransitivity; [eapply (rows_ok _ _ _ _ _ t); [reflexivity|lia|exact Hi]|] end.
      all: match goal with |- context [(?i + ?t) mod 4] => generalize (Z.mod_pos_bound (i + t) 4 ltac:(lia)); generalize ((i + t) mod 4) end; intros c Hc.
      all: destruct (four c Hc) as [-> | [-> | [-> | ->]]]; cbn [pick4].
      all: (eapply (ldW 3 4 dst cs res old); [lia|exact Hold|lia|lia|lia|exact Hi]).
Qed.

(* after the loop: the local array is rotated and transposed back into columns *)
Lemma lh_ld8a m F x : lh m F -> x mod 32 = 0 -> 0 <= x <= 160 -> load8w m x <> None.
Proof. intros. now apply (lh_load8 m F x). Qed.
Definition ld4w (lm : mem) (x : reg) (a0 a1 : Z) (k : nat) : reg :=
  v_put2 (v_put2 x 0 (nth k (t_load8w lm a0) 0) (nth (4 + k) (t_load8w lm a0) 0)) 1
    (nth k (t_load8w lm a1) 0) (nth (4 + k) (t_load8w lm a1) 0).
Lemma ld4w_ok lm F x rc k : lh lm F -> 0 <= rc < 3 -> 0 <= k < 4 -> forall j, 0 <= j < 4 ->
  get 32 j (ld4w lm x (64 * rc) (64 * rc + 32) (Z.to_nat k)) = wrapS 32 (F rc j k).
Proof.
  intros Hlm Hrc Hk j Hj. unfold ld4w.
  destruct (lh_load8 lm F (64 * rc) Hlm ltac:(lia) ltac:(lia)) as [_ N0].
  destruct (lh_load8 lm F (64 * rc + 32) Hlm ltac:(lia) ltac:(lia)) as [_ N1].
  replace (4 + Z.to_nat k)%nat with (Z.to_nat (4 + k)) by lia. rewrite !N0, !N1 by lia.
  rewrite g_put2 by lia. rewrite g_put2 by lia.
  destruct (four j Hj) as [-> | [-> | [-> | ->]]]; ceqb; f_equal; f_equal; lia.
Qed.
Definition K12b_out (lm : mem) (x : Z -> reg) (a0 a1 : Z) (c : Z) : reg :=
  let r0 := ld4w lm (x 0) a0 a1 0 in
  let r1 := v_rot32 (ld4w lm (x 1) a0 a1 1) 3 in
  let r2 := v_rot32 (ld4w lm (x 2) a0 a1 2) 2 in
  let r3 := v_rot32 (ld4w lm (x 3) a0 a1 3) 1 in
  pick4 (v_put (v_trn1 r0 r1) 1 (v_trn1 r2 r3) 0) (v_put (v_trn2 r0 r1) 1 (v_trn2 r2 r3) 0)
    (v_put (v_trn1 r2 r3) 0 (v_trn1 r0 r1) 1) (v_put (v_trn2 r2 r3) 0 (v_trn2 r0 r1) 1) c.
Lemma K12b_out_ok lm F x rc a0 a1 c i : lh lm F -> a0 = 64 * rc -> a1 = 64 * rc + 32 -> 0 <= rc < 3 -> 0 <= c < 4 -> 0 <= i < 4 ->
  get 32 i (K12b_out lm x a0 a1 c) = wrapS 32 (F rc ((c - i) mod 4) i).
Proof.
  intros Hlm -> -> Hrc Hc Hi. unfold K12b_out. cbv zeta.
  pose proof (fun x k Hk => ld4w_ok lm F x rc k Hlm Hrc Hk) as Q.
  pose proof (fun x => Q x 0 ltac:(lia)) as Q0. pose proof (fun x => Q x 1 ltac:(lia)) as Q1.
  pose proof (fun x => Q x 2 ltac:(lia)) as Q2. pose proof (fun x => Q x 3 ltac:(lia)) as Q3. clear Q.
  change (Z.to_nat 0) with 0%nat in Q0. change (Z.to_nat 1) with 1%nat in Q1. change (Z.to_nat 2) with 2%nat in Q2. change (Z.to_nat 3) with 3%nat in Q3.
  assert (G : forall k, 0 <= k < 4 -> get 32 k (pick4 (ld4w lm (x 0) (64 * rc) (64 * rc + 32) 0) (v_rot32 (ld4w lm (x 1) (64 * rc) (64 * rc + 32) 1) 3)
    (v_rot32 (ld4w lm (x 2) (64 * rc) (64 * rc + 32) 2) 2) (v_rot32 (ld4w lm (x 3) (64 * rc) (64 * rc + 32) 3) 1) i) = wrapS 32 (F rc ((k - i) mod 4) i)).
  { intros k Hk. destruct (four i Hi) as [-> | [-> | [-> | ->]]]; cbn [pick4].
    - rewrite Q0 by lia. do 2 f_equal. lia.
    - rewrite g_rot32 by lia. rewrite Q1 by lia. do 2 f_equal. lia.
    - rewrite g_rot32 by lia. rewrite Q2 by lia. do 2 f_equal. lia.
    - rewrite g_rot32 by lia. rewrite Q3 by lia. do 2 f_equal. lia. }
  clear Q0 Q1 Q2 Q3.
  destruct (four c Hc) as [-> | [-> | [-> | ->]]]; cbn [pick4];
    [rewrite tr4_ok0 by lia|rewrite tr4_ok1 by lia|rewrite tr4_ok2 by lia|rewrite tr4_ok3 by lia]; apply G; lia.
Qed.
Lemma all_of_cons (P : Prop) l : P -> all_of l -> all_of (P :: l).
Proof. intros H1 H2. cbn [all_of]. now split. Qed.
Lemma and_assoc_ex (P : (Z -> Z -> Z) -> Prop) (Q : (Z -> Z -> Z) -> Prop) (R : Prop) W : P W -> Q W /\ R -> (exists W, P W /\ Q W) /\ R.
Proof. intros H1 [H2 H3]. split; [exists W; tauto|exact H3]. Qed.
Lemma K12b_finish s : K12b_rel (run / 2) s -> (2 | run) -> 2 <= run ->
  exists k s', (k <= 50)%nat /\ asteps k lhs rhs prog 444 s = Some (length prog, s') /\
    (exists W, wgood W run /\ forall r c, 0 <= r < 3 * 4 -> 0 <= c < 4 -> as_dst s' (dst + (r * 1 + c * cs)) = Some (wrapS 32 (base r c + W r c))) /\
    (forall a, (forall r c, 0 <= r < 3 * 4 -> 0 <= c < 4 -> a <> dst + (r * 1 + c * cs)) -> as_dst s' a = res a).
Proof.
  intros (x0 & x1 & x2 & x3 & t0 & t1 & fl & L & lm & F & -> & Hlm & W & HW & HF) Hdiv Hrun.
  replace (2 * (run / 2)) with run in * by (destruct Hdiv; lia).
  set (N := fun rc c => sel3 (K12b_out lm (fun k => pick4 x0 x1 x2 x3 k) 0 (0 + 32) c) (K12b_out lm (fun k => L 0 k) (0 + 32 + 32) (0 + 32 + 32 + 32) c)
    (K12b_out lm (fun k => L 1 k) (0 + 32 + 32 + 32 + 32) (0 + 32 + 32 + 32 + 32 + 32) c) rc).
  assert (HN : forall rc c i, 0 <= rc < 3 -> 0 <= c < 4 -> 0 <= i < 4 -> get 32 i (N rc c) = wrapS 32 (base (4 * rc + i) c + W (4 * rc + i) c)).
  { intros rc c i Hrc Hc Hi. transitivity (wrapS 32 (F rc ((c - i) mod 4) i)).
    - unfold N. destruct (three rc Hrc) as [-> | [-> | ->]]; cbn [sel3]; apply K12b_out_ok; assumption || lia.
    - rewrite HF by lia. replace ((i + (c - i) mod 4) mod 4) with c by lia. apply wrapS_idem. lia. }
  destruct (stores_finishK 4 3 4 dst cs res old ltac:(lia) ltac:(lia) Hinj Hold qs12x4 qs12x4_ok N) as (S1 & S2 & S3).
  exists 43%nat. eexists. split; [lia|]. split.
  - etransitivity; [eapply arun_sound; [unfold K12b_regs; symex; reflexivity|]|reflexivity].
    do 6 (apply all_of_cons; [eapply lh_ld8a; [exact Hlm|reflexivity|lia]|]).
    obls_stores res qs12x4 S1.
  - apply and_assoc_ex with (W := W); [exact HW|]. apply (stores_value 3 4 dst cs res old qs12x4 N); [lia|exact Hinj|exact Hold|exact qs12x4_ok| |].
    + dst_stores res qs12x4.
    + exact HN.
Qed.
Lemma K12b_ok junk t0 t1 fl fuel lm : length junk = 16%nat -> 2 <= run -> (2 | run) -> (exists F, lh lm F) ->
  (130 + 81 * Z.to_nat (run / 2) <= fuel)%nat ->
  exists s', aexec fuel lhs rhs prog 0 (mk_as junk (mk_ag lp0 rp0 (4 * dst) run start cs t0 t1) fl res lm) = Some s' /\
    (exists W, wgood W run /\ forall r c, 0 <= r < 3 * 4 -> 0 <= c < 4 -> as_dst s' (dst + (r * 1 + c * cs)) = Some (wrapS 32 (base r c + W r c))) /\
    (forall a, (forall r c, 0 <= r < 3 * 4 -> 0 <= c < 4 -> a <> dst + (r * 1 + c * cs)) -> as_dst s' a = res a).
Proof.
  intros Hj Hrun Hdiv Hlm Hfu.
  destruct (K12b_start junk t0 t1 fl lm Hj Hrun Hlm) as (k1 & s1 & B1 & E1 & H1).
  destruct (K12b_rounds (Z.to_nat run) 0 s1) as (k2 & s2 & B2 & E2 & H2); try assumption; try lia.
  destruct (K12b_finish s2 H2 Hdiv Hrun) as (k3 & s3 & B3 & E3 & H3).
  exists s3. split; [|exact H3]. rewrite Z.sub_0_r in B2.
  assert (E : asteps (k1 + (k2 + k3)) lhs rhs prog 0 (mk_as junk (mk_ag lp0 rp0 (4 * dst) run start cs t0 t1) fl res lm) = Some (length prog, s3)).
  { rewrite (asteps_app _ _ _ _ _ _ _ _ _ E1). rewrite (asteps_app _ _ _ _ _ _ _ _ _ E2). exact E3. }
  replace fuel with ((k1 + (k2 + k3)) + (fuel - (k1 + (k2 + k3))))%nat by lia. rewrite (aexec_steps _ _ _ _ _ _ _ _ _ E). apply aexec_end.
Qed.
End K12b.
