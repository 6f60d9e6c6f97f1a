(* OutputSimdCast.v: the casts of output_sse.h, output_neon.h and output_msa.h *)
From Verif Require Import Base BaseLemmas SimdModel2 CommonModel PackModel ComputeModel FixedPointModel FixedPointSpec OutputModel OutputProofs
  UnpackModel UnpackProofs SimdModel SimdProofs SimdProofs2 OutputSimdModel OutputSimdLanes OutputSimdBlocks.

(* value p, in memory order, of the registers of a block *)
Definition lval (t : sty) (n : Z) (regs : list Z) (p : Z) : Z :=
  if n =? 1 then nthZ regs p else as_ty t (getU (width t) (p mod n) (nthZ regs (p / n))).
Lemma entry_lval T b i j : entry T b i j = lval (s_ty b) (lanes_of T (s_ty b) (s_count b)) (s_regs b) (i + s_rows b * j).
Proof. reflexivity. Qed.

Definition sat_of (t : sty) (x : Z) : Z :=
  match t with
  | U8 => Z.max 0 (Z.min 255 x)
  | I8 => Z.max (-128) (Z.min 127 x)
  | I16 => Z.max (-32768) (Z.min 32767 x)
  | I32 => x
  end.
Lemma sat16 x : saturate 16 x = sat_of I16 x.
Proof. reflexivity. Qed.
Lemma sat8 x : saturate 8 x = sat_of I8 x.
Proof. reflexivity. Qed.
Lemma wrapS_sat16 x : wrapS 16 (saturate 16 x) = saturate 16 x.
Proof. apply wrapS_small; [lia|]. apply saturate_fits. lia. Qed.

Lemma lanesS_nth w n v i : 0 <= i < n -> nthZ (lanesS w n v) i = get w i v.
Proof. intros H. exact (nthZ_map (fun i => get w i v) n i H). Qed.
Lemma lanesS_len w n v : 0 <= n -> Z.of_nat (length (lanesS w n v)) = n.
Proof. intros H. unfold lanesS. rewrite map_length. now apply zrange_length. Qed.
Lemma nthZ_app l k i : 0 <= i < Z.of_nat (length l + length k) ->
  nthZ (l ++ k) i = if i <? Z.of_nat (length l) then nthZ l i else nthZ k (i - Z.of_nat (length l)).
Proof.
  intros H. unfold nthZ. destruct (Z.ltb_spec i (Z.of_nat (length l))).
  - apply app_nth1. lia.
  - rewrite app_nth2 by lia. f_equal. lia.
Qed.
Lemma narrow2 w w' n f a b j : 1 <= w' -> 0 < n -> 0 <= j < 2 * n ->
  nthZ (map f (lanesS w n a ++ lanesS w n b)) j = f (get w (j mod n) (if j <? n then a else b)).
Proof.
  intros Hw Hn Hj. pose proof (lanesS_len w n a ltac:(lia)) as La. pose proof (lanesS_len w n b ltac:(lia)) as Lb.
  rewrite nthZ_mapl by (rewrite app_length; lia). f_equal. rewrite nthZ_app by lia. rewrite La.
  destruct (Z.ltb_spec j n).
  - rewrite lanesS_nth by lia. now rewrite Z.mod_small by lia.
  - rewrite lanesS_nth by lia. f_equal. apply Z.mod_unique with 1; lia.
Qed.
Lemma get_packs a b j : 0 <= j < 8 -> get 16 j (mm_packs_epi32 a b) = saturate 16 (get 32 (j mod 4) (if j <? 4 then a else b)).
Proof.
  intros Hj. unfold mm_packs_epi32. rewrite get_regl by (try rewrite map_length, app_length, !Nat2Z.inj_add, !lanesS_len by lia; lia).
  rewrite (narrow2 32 16 4) by lia. apply wrapS_sat16.
Qed.
Lemma satU8_range x : 0 <= satU8 x <= 255.
Proof. unfold satU8. lia. Qed.
Lemma wrapU_satU8 x : wrapU 8 (satU8 x) = satU8 x.
Proof. unfold wrapU. apply Z.mod_small. pose proof (satU8_range x). change (2 ^ 8) with 256. lia. Qed.
Lemma getU_packus a b j : 0 <= j < 16 -> getU 8 j (mm_packus_epi16 a b) = satU8 (get 16 (j mod 8) (if j <? 8 then a else b)).
Proof.
  intros Hj. unfold mm_packus_epi16. rewrite getU_regl by (try rewrite map_length, app_length, !Nat2Z.inj_add, !lanesS_len by lia; lia).
  rewrite (narrow2 16 8 8) by lia. apply wrapU_satU8.
Qed.
Lemma get_qmovn32 a j : 0 <= j < 4 -> get 16 j (vqmovn_s32 a) = saturate 16 (get 32 j a).
Proof.
  intros Hj. unfold vqmovn_s32. rewrite get_regl by (try rewrite map_length, lanesS_len by lia; lia).
  rewrite nthZ_mapl by (rewrite lanesS_len by lia; lia). rewrite lanesS_nth by lia. apply wrapS_sat16.
Qed.
Lemma getU_qmovn16 a j : 0 <= j < 8 -> getU 8 j (vqmovn_s16 a) = wrapU 8 (saturate 8 (get 16 j a)).
Proof.
  intros Hj. unfold vqmovn_s16. rewrite getU_regl by (try rewrite map_length, lanesS_len by lia; lia).
  rewrite nthZ_mapl by (rewrite lanesS_len by lia; lia). now rewrite lanesS_nth by lia.
Qed.
Lemma getU_qmovun16 a j : 0 <= j < 8 -> getU 8 j (vqmovun_s16 a) = satU8 (get 16 j a).
Proof.
  intros Hj. unfold vqmovun_s16. rewrite getU_regl by (try rewrite map_length, lanesS_len by lia; lia).
  rewrite nthZ_mapl by (rewrite lanesS_len by lia; lia). rewrite lanesS_nth by lia. apply wrapU_satU8.
Qed.
Lemma get_vcombine a b j : 0 <= j < 8 -> get 16 j (vcombine a b) = get 16 (j mod 4) (if j <? 4 then a else b).
Proof.
  intros Hj. rewrite !get_getU by lia. f_equal. rewrite getU_vcombine; [reflexivity|]. unfold half_ok. change (64 / 16) with 4. lia.
Qed.
Lemma as_u8 x : as_ty U8 (satU8 (saturate 16 x)) = sat_of U8 x.
Proof. cbn [as_ty]. rewrite wrapU_satU8. rewrite sat16. cbn. unfold satU8. lia. Qed.
Lemma as_i8 x : as_ty I8 (wrapU 8 (saturate 8 (saturate 16 x))) = sat_of I8 x.
Proof.
  cbn [as_ty width]. rewrite wrapS_wrapU by lia. rewrite wrapS_small by (try apply saturate_fits; lia). rewrite sat8, sat16. cbn. lia.
Qed.
Lemma as_i16 v i : as_ty I16 (getU 16 i v) = get 16 i v.
Proof. cbn [as_ty width]. rewrite get_getU by lia. reflexivity. Qed.
Lemma as_i32 v i : as_ty I32 (getU 32 i v) = get 32 i v.
Proof. cbn [as_ty width]. rewrite get_getU by lia. reflexivity. Qed.

(* MSA *)
Lemma getU_pckev w ws wt j : w = 8 \/ w = 16 -> 0 <= j < 2 * (64 / w) ->
  getU w j (msa_pckev w ws wt) = getU w (2 * (j mod (64 / w))) (if j <? 64 / w then wt else ws).
Proof.
  intros W Hj. assert (0 < 64 / w) by (destruct W; subst w; reflexivity). unfold msa_pckev.
  pose proof (zrange_length (64 / w) ltac:(lia)) as L.
  rewrite getU_regl by (try rewrite app_length, !map_length; lia).
  rewrite nthZ_app by (rewrite !map_length; lia). rewrite map_length, L.
  assert (X : forall i v, wrapU w (getU w i v) = getU w i v)
    by (intros; unfold getU, wrapU; apply Z.mod_mod; destruct W; subst w; discriminate).
  destruct (Z.ltb_spec j (64 / w)).
  - rewrite (nthZ_map (fun i => getU w (2 * i) wt)) by lia. rewrite X. now rewrite Z.mod_small by lia.
  - rewrite (nthZ_map (fun i => getU w (2 * i) ws)) by lia. rewrite X. do 2 f_equal. apply Z.mod_unique with 1; lia.
Qed.
Lemma get_pckev16 ws wt j : 0 <= j < 8 -> get 16 j (msa_pckev 16 ws wt) = get 16 (2 * (j mod 4)) (if j <? 4 then wt else ws).
Proof. intros H. rewrite !get_getU by lia. f_equal. apply (getU_pckev 16 ws wt j); [now right|exact H]. Qed.
Lemma getU_pckev8 ws wt j : 0 <= j < 16 -> getU 8 j (msa_pckev 8 ws wt) = getU 8 (2 * (j mod 8)) (if j <? 8 then wt else ws).
Proof. intros H. apply (getU_pckev 8 ws wt j); [now left|exact H]. Qed.
Lemma wrapU_nest w x : w = 8 \/ w = 16 -> wrapU w (wrapU (2 * w) x) = wrapU w x.
Proof.
  intros W. unfold wrapU. destruct W; subst w; [change (2 ^ (2 * 8)) with (2 ^ 8 * 2 ^ 8)|change (2 ^ (2 * 16)) with (2 ^ 16 * 2 ^ 16)];
  (rewrite Z.rem_mul_r by (discriminate || reflexivity); rewrite (Z.mul_comm (2 ^ _)), Z.mod_add by discriminate; apply Z.mod_mod; discriminate).
Qed.
Lemma even_lane w i v : w = 8 \/ w = 16 -> 0 <= i -> getU w (2 * i) v = wrapU w (get (2 * w) i v).
Proof.
  intros W Hi. pose proof (getU_get_nest (2 * w) w 2 0 i v ltac:(destruct W; lia) ltac:(lia) ltac:(lia) Hi) as E.
  rewrite Z.add_0_r in E. rewrite <- E. unfold getU. rewrite Z.mul_0_r, Z.shiftr_0_r. reflexivity.
Qed.
Lemma even8 i v : 0 <= i -> getU 8 (2 * i) v = wrapU 8 (get 16 i v).
Proof. exact (even_lane 8 i v (or_introl eq_refl)). Qed.
Lemma even16 i v : 0 <= i -> get 16 (2 * i) v = wrapS 16 (get 32 i v).
Proof. intros H. rewrite get_getU by lia. rewrite (even_lane 16 i v (or_intror eq_refl) H). apply wrapS_wrapU. lia. Qed.
Lemma get_sat32 a m i : 0 <= i < 4 -> get 32 i (msa_sat 32 a m) = wrapS 32 (saturate (m + 1) (get 32 i a)).
Proof. intros H. unfold msa_sat. apply get_map1; [lia|exact H]. Qed.
Lemma get_maxi0 w a i : w = 16 \/ w = 32 -> 0 <= i < lanes w -> get w i (msa_maxi0 w a) = wrapS w (Z.max 0 (get w i a)).
Proof. intros W H. unfold msa_maxi0. apply get_map1; [lia|exact H]. Qed.
Lemma sat9 x : -256 <= saturate 9 x <= 255 /\ Z.max 0 (saturate 9 x) = sat_of U8 x.
Proof. unfold saturate, int_min, int_max. cbn. lia. Qed.
Lemma wS w x : 1 <= w -> - 2 ^ (w - 1) <= x < 2 ^ (w - 1) -> wrapS w x = x.
Proof. intros Hw H. apply wrapS_small; [exact Hw|]. unfold int_min, int_max. lia. Qed.
Lemma sat_u8_range x : 0 <= sat_of U8 x <= 255.
Proof. cbn. lia. Qed.
Ltac small32 := lia || (change (2 ^ (32 - 1)) with 2147483648; lia).
Ltac small16 := lia || (change (2 ^ (16 - 1)) with 32768; lia).
Lemma msa_u8_1 x : as_ty U8 (wrapU 8 (wrapS 16 (wrapS 32 (Z.max 0 (wrapS 32 (saturate (8 + 1) x)))))) = sat_of U8 x.
Proof.
  destruct (sat9 x) as [R E]. change (8 + 1) with 9. pose proof (sat_u8_range x).
  rewrite (wS 32 (saturate 9 x)) by small32. rewrite E. rewrite (wS 32) by small32. rewrite (wS 16) by small16.
  cbn [as_ty width]. unfold wrapU. rewrite !Z.mod_small; change (2 ^ 8) with 256; lia.
Qed.
Lemma msa_u8_2 x : as_ty U8 (wrapU 8 (wrapS 16 (Z.max 0 (wrapS 16 (wrapS 32 (saturate (8 + 1) x)))))) = sat_of U8 x.
Proof.
  destruct (sat9 x) as [R E]. change (8 + 1) with 9. pose proof (sat_u8_range x).
  rewrite (wS 32 (saturate 9 x)) by small32.
  rewrite (wS 16 (saturate 9 x)) by small16.
  rewrite E. rewrite (wS 16) by small16.
  cbn [as_ty width]. unfold wrapU. rewrite !Z.mod_small; change (2 ^ 8) with 256; lia.
Qed.
Lemma msa_i16 x : wrapS 16 (wrapS 32 (saturate (15 + 1) x)) = sat_of I16 x.
Proof.
  change (15 + 1) with 16. rewrite (wS 32) by (try lia; rewrite sat16; cbn [sat_of]; change (2 ^ (32 - 1)) with 2147483648; lia).
  rewrite wrapS_sat16. apply sat16.
Qed.
Definition low8 (x : Z) : Z := x mod 256.
Lemma msa_tr x : as_ty U8 (wrapU 8 (wrapS 16 x)) = low8 x.
Proof.
  unfold low8.
  assert (E : wrapU 8 (wrapS 16 x) = x mod 256).
  { unfold wrapU, wrapS. change (2 ^ (16 - 1)) with 32768. change (2 ^ 16) with 65536. change (2 ^ 8) with 256. lia. }
  rewrite E. cbn [as_ty width]. unfold wrapU. apply Z.mod_mod. discriminate.
Qed.

Definition cast_ok (T : simd) (t : sty) : Prop := match T, t with Sse, U8 | Sse, I16 | Neon, U8 | Neon, I8 | Neon, I16 | Mips _, U8 | Mips _, I16 => True | _, _ => False end.
Ltac num_in p n := assert (p_In : In p (zrange n)) by (apply zrange_In; lia); cbn in p_In;
  repeat (destruct p_In as [p_In | p_In]; [subst p|]); try contradiction.
Ltac norm_ifs := repeat match goal with
  | |- context [?a <? ?b] => let v := eval vm_compute in (a <? b) in change (a <? b) with v; cbv iota
  | |- context [?a mod ?b] => let v := eval vm_compute in (a mod b) in change (a mod b) with v
  end.
Ltac cast_lane :=
  match goal with
  | |- context [getU 8 ?j (getU 32 ?s ?v)] => rewrite (getU_getU 32 8 4 j s v) by lia; let k := eval vm_compute in (4 * s + j) in change (4 * s + j) with k
  | |- context [getU 8 ?j (get 32 ?s ?v)] => rewrite (getU_get_nest 32 8 4 j s v) by lia; let k := eval vm_compute in (4 * s + j) in change (4 * s + j) with k
  | |- context [getU 8 ?j (mm_packus_epi16 ?a ?b)] => rewrite (getU_packus a b j) by lia; norm_ifs
  | |- context [getU 8 ?j (vqmovn_s16 ?a)] => rewrite (getU_qmovn16 a j) by lia
  | |- context [getU 8 ?j (vqmovun_s16 ?a)] => rewrite (getU_qmovun16 a j) by lia
  | |- context [as_ty I16 (getU 16 ?j ?v)] => rewrite (as_i16 v j)
  | |- context [get 16 ?j (mm_packs_epi32 ?a ?b)] => rewrite (get_packs a b j) by lia; norm_ifs
  | |- context [get 16 ?j (vcombine ?a ?b)] => rewrite (get_vcombine a b j) by lia; norm_ifs
  | |- context [get 16 ?j (vqmovn_s32 ?a)] => rewrite (get_qmovn32 a j) by lia
  | |- context [getU 8 ?j (msa_pckev 8 ?a ?b)] => rewrite (getU_pckev8 a b j) by lia; norm_ifs; rewrite even8 by lia
  | |- context [get 16 ?j (msa_pckev 16 ?a ?b)] => rewrite (get_pckev16 a b j) by lia; norm_ifs; rewrite even16 by lia
  | |- context [get 16 ?j (msa_maxi0 16 ?a)] => rewrite (get_maxi0 16 a j) by (lia || (split; [lia|reflexivity]))
  | |- context [get 32 ?j (msa_maxi0 32 ?a)] => rewrite (get_maxi0 32 a j) by (lia || (split; [lia|reflexivity]))
  | |- context [get 16 ?j (msa_sat 32 ?a ?m)] => let k := eval vm_compute in (j / 2) in change (get 16 j (msa_sat 32 a m)) with (get 16 (2 * k) (msa_sat 32 a m)); rewrite even16 by lia
  | |- context [get 32 ?j (msa_sat 32 ?a ?m)] => rewrite (get_sat32 a m j) by lia
  end.
Lemma cast_spec T t l : cast_ok T t -> In (length l) [1; 2; 4; 8]%nat ->
  exists l', cast_regs T t l = Some l' /\
    Z.of_nat (length l') = 4 * Z.of_nat (length l) / lanes_of T t (4 * Z.of_nat (length l)) /\
    forall p, 0 <= p < 4 * Z.of_nat (length l) ->
      lval t (lanes_of T t (4 * Z.of_nat (length l))) l' p = sat_of t (get 32 (p mod 4) (nthZ l (p / 4))).
Proof.
  intros HT HL. cbn [In] in HL.
  assert (X : exists a0, l = [a0] \/ exists a1, l = [a0; a1] \/ exists a2 a3, l = [a0; a1; a2; a3] \/
     exists a4 a5 a6 a7, l = [a0; a1; a2; a3; a4; a5; a6; a7]).
  { destruct l as [|a0 [|a1 [|a2 [|a3 [|a4 [|a5 [|a6 [|a7 [|a8 l]]]]]]]]]; cbn [length] in HL; try lia; exists a0.
    - now left.
    - right. exists a1. now left.
    - right. exists a1. right. exists a2, a3. now left.
    - right. exists a1. right. exists a2, a3. right. exists a4, a5, a6, a7. reflexivity. }
  clear HL. destruct X as (a0 & [-> | (a1 & [-> | (a2 & a3 & [-> | (a4 & a5 & a6 & a7 & ->)])])]);
  destruct T, t; try contradiction; (eexists; split; [reflexivity|]; split; [reflexivity|]); cbn [length];
    intros p Hp;
    match type of Hp with _ <= _ < ?n => let v := eval vm_compute in n in change n with v in Hp |- *; num_in p v end;
    cbv -[getU get as_ty mm_packus_epi16 mm_packs_epi32 vqmovn_s16 vqmovun_s16 vqmovn_s32 vcombine sat_of extract16 msa_pckev msa_maxi0 msa_sat];
    try (unfold extract16; rewrite <- get_getU by lia);
    repeat cast_lane; first [apply as_u8 | apply as_i8 | apply sat16 | apply msa_u8_1 | apply msa_u8_2 | apply msa_i16].
Qed.
Lemma trunc_spec v l : In (length l) [1; 2; 4; 8]%nat ->
  exists l', msa_trunc_u8 l = Some l' /\
    Z.of_nat (length l') = 4 * Z.of_nat (length l) / lanes_of (Mips v) U8 (4 * Z.of_nat (length l)) /\
    forall p, 0 <= p < 4 * Z.of_nat (length l) ->
      lval U8 (lanes_of (Mips v) U8 (4 * Z.of_nat (length l))) l' p = low8 (get 32 (p mod 4) (nthZ l (p / 4))).
Proof.
  intros HL. cbn [In] in HL.
  assert (X : exists a0, l = [a0] \/ exists a1, l = [a0; a1] \/ exists a2 a3, l = [a0; a1; a2; a3] \/
     exists a4 a5 a6 a7, l = [a0; a1; a2; a3; a4; a5; a6; a7]).
  { destruct l as [|a0 [|a1 [|a2 [|a3 [|a4 [|a5 [|a6 [|a7 [|a8 l]]]]]]]]]; cbn [length] in HL; try lia; exists a0.
    - now left.
    - right. exists a1. now left.
    - right. exists a1. right. exists a2, a3. now left.
    - right. exists a1. right. exists a2, a3. right. exists a4, a5, a6, a7. reflexivity. }
  clear HL. destruct X as (a0 & [-> | (a1 & [-> | (a2 & a3 & [-> | (a4 & a5 & a6 & a7 & ->)])])]);
  (eexists; split; [reflexivity|]; split; [reflexivity|]); cbn [length];
    intros p Hp;
    match type of Hp with _ <= _ < ?n => let v := eval vm_compute in n in change n with v in Hp |- *; num_in p v end;
    cbv -[getU get as_ty msa_pckev low8];
    repeat cast_lane; apply msa_tr.
Qed.
