(* OutputSimdStore.v: StoreFinalOutputV writes every entry of the block once *)
From Verif Require Import Base BaseLemmas SimdModel2 CommonModel PackModel ComputeModel FixedPointModel FixedPointSpec OutputModel OutputProofs UnpackModel UnpackProofs
  SimdModel SimdProofs SimdProofs2 OutputSimdModel OutputSimdLanes.

Definition store_shape (R C : Z) : Prop :=
  R = 8 /\ C = 4 \/ R = 4 /\ C = 4 \/ R = 1 /\ C = 4 \/ R = 8 /\ C = 1 \/ R = 4 /\ C = 1 \/ R = 8 /\ C = 8.
Definition contig (o : map_order) (at_ : Z -> Z -> Z) : Prop :=
  forall r c i, at_ r c + i = match o with ColMajor => at_ (r + i) c | RowMajor => at_ r (c + i) end.
Lemma vst_eq o at_ t n r c v : contig o at_ ->
  vst t n (at_ r c) v =
  map (fun i => (match o with ColMajor => at_ (r + i) c | RowMajor => at_ r (c + i) end, as_ty t (getU (width t) i v))) (zrange n).
Proof. intros H. unfold vst. apply map_ext. intros i. now rewrite H. Qed.
(* the stride between the columns of a column-major map, the rows of a row-major one *)
Definition strided (o : map_order) (at_ : Z -> Z -> Z) (stride : Z) : Prop :=
  forall r c i, at_ r c + stride * i = match o with ColMajor => at_ r (c + i) | RowMajor => at_ (r + i) c end.
Lemma mips_ptr_eq o at_ stride i : strided o at_ stride -> 0 <= i < 8 ->
  mips_ptr (at_ 0 0) stride i = match o with ColMajor => at_ 0 i | RowMajor => at_ i 0 end.
Proof.
  intros H Hi. specialize (H 0 0). assert (p_In : In i (zrange 8)) by (apply zrange_In; lia). cbn in p_In.
  unfold mips_ptr. rewrite !Z.shiftl_mul_pow2 by lia. change (2 ^ 1) with 2. change (2 ^ 2) with 4. unfold nthZ.
  repeat (destruct p_In as [<- | p_In]; [|]); try contradiction;
  match goal with |- nth (Z.to_nat ?k) _ _ = _ => specialize (H k); let n := eval cbv in (Z.to_nat k) in change (Z.to_nat k) with n; cbn [nth];
    change (0 + k) with k in H; rewrite <- H; ring end.
Qed.
Lemma sw_at_eq o at_ r c off v : contig o at_ ->
  sw_at (at_ r c) off v =
  map (fun i => (match o with ColMajor => at_ (r + off + i) c | RowMajor => at_ r (c + off + i) end, as_ty U8 (getU 8 i v))) (zrange 4).
Proof. intros H. unfold sw_at. rewrite H. destruct o; rewrite (vst_eq _ _ _ _ _ _ _ H); reflexivity. Qed.
Lemma st_bytes_eq t f v : width t = 8 -> st_bytes t f v = map (fun i => (f i, as_ty t (getU 8 i v))) (zrange 4).
Proof.
  intros E. unfold st_bytes. apply map_ext_in. intros i Hi. apply zrange_In in Hi. rewrite as_ty_shiftr by (assumption || lia). reflexivity.
Qed.

Ltac comp := cbv -[vst get getU mips_ptr sw_at as_ty unpacklo unpackhi vtrn0 vtrn1 vcombine vget_low vget_high st_bytes covers in_rect entry].
Ltac vis_of at_ L :=
  match L with
  | nil => constr:(@nil (Z * Z))
  | (at_ ?r ?c, _) :: ?t => let t' := vis_of at_ t in constr:((r, c) :: t')
  end.
Lemma cons_as (a : Z) t x y (l k : list (Z * Z)) : x = y -> l = k -> (a, as_ty t x) :: l = (a, as_ty t y) :: k.
Proof. now intros -> ->. Qed.
Lemma cons_eq (a x : Z) (l k : list (Z * Z)) : l = k -> (a, x) :: l = (a, x) :: k.
Proof. now intros ->. Qed.
Ltac same_entries :=
  match goal with
  | |- nil = nil => reflexivity
  | |- (?a, as_ty ?t ?x) :: ?l = (?a, as_ty ?t ?y) :: ?k =>
      refine (cons_as a t x y l k _ _); [repeat lane_step; reflexivity | same_entries]
  | |- (?a, ?x) :: ?l = (?a, ?x) :: ?k => refine (cons_eq a x l k _); same_entries
  end.
Ltac store_case at_ Hc Hs :=
  comp; rewrite ?(fun i => mips_ptr_eq _ at_ _ i Hs) by lia; rewrite ?(fun r c off v => sw_at_eq _ at_ r c off v Hc), ?(vst_eq _ at_ _ _ _ _ _ Hc), ?st_bytes_eq by reflexivity; comp;
  match goal with
  | |- exists l, Some ?L = Some l /\ covers ?f _ l =>
      exists L; split; [reflexivity|];
      let vis := vis_of at_ L in
      replace L with (map (fun q => f (fst q) (snd q)) vis);
      [apply visits_covers; vm_compute; reflexivity | symmetry; cbv -[get getU as_ty unpacklo unpackhi vtrn0 vtrn1 vcombine vget_low vget_high]; same_entries]
  end.
Ltac regs_case l H :=
  repeat (destruct l as [|? l]; [try (cbn in H; discriminate H)|]); try (cbn in H; discriminate H); try (exfalso; cbn [length] in H; lia).

Section Store.
Variables (T : simd) (o : map_order) (at_ : Z -> Z -> Z) (stride : Z).
Hypothesis (Hc : contig o at_) (Hs : strided o at_ stride).
Definition store_any (b : sblock) : option (list (Z * Z)) :=
  match s_ty b, T with
  | I32, _ => store_i32 T o at_ b
  | I16, Sse | I16, Mips _ => store_i16_sse o at_ b
  | I16, Neon => store_i16_neon o at_ b
  | U8, Sse => store_u8_sse o at_ b
  | U8, Neon => store_8_neon U8 o at_ b
  | I8, Neon => store_8_neon I8 o at_ b
  | U8, Mips v => store_u8_msa v o at_ stride b
  | I8, Sse | I8, Mips _ => None
  end.
Definition stored (t : sty) (R C : Z) : Prop := forall l,
  Z.of_nat (length l) = R * C / lanes_of T t (R * C) ->
  exists log, store_any (mk_sblock t R C l) = Some log /\
    covers (fun i j => (at_ i j, entry T (mk_sblock t R C l) i j)) (in_rect 0 R 0 C) log.
End Store.
Ltac list_n l n H := 
  match n with
  | O => destruct l; [|exfalso; cbn [length] in H; lia]
  | S ?k => destruct l as [|? l]; [exfalso; cbn [length] in H; lia|]; list_n l k H
  end.
Ltac go n := intros l Hl;
  match type of Hl with _ = ?x => let v := eval vm_compute in x in change x with v in Hl end;
  assert (Hn : length l = n) by lia; clear Hl; list_n l n Hn; clear Hn.

Section Cases.
Variables (T : simd) (o : map_order) (at_ : Z -> Z -> Z) (stride : Z).
Hypothesis (Hc : contig o at_) (Hs : strided o at_ stride).
Local Notation stored := (stored T o at_ stride).
Lemma st_i32_84 : stored I32 8 4.
Proof. destruct T, o; go 8%nat; store_case at_ Hc Hs. Qed.
Lemma st_i16_84 : stored I16 8 4.
Proof. destruct T, o; [go 4%nat|go 4%nat|go 4%nat|go 4%nat|go 4%nat|go 4%nat]; store_case at_ Hc Hs. Qed.
Lemma st_u8_84 : stored U8 8 4.
Proof. destruct T as [| |v], o; [go 2%nat|go 2%nat|go 4%nat|go 4%nat|destruct v; go 2%nat|destruct v; go 2%nat]; store_case at_ Hc Hs. Qed.
Lemma st_i8_84 : T = Neon -> stored I8 8 4.
Proof. intros ->. destruct o; go 4%nat; store_case at_ Hc Hs. Qed.
Lemma st_i32_44 : stored I32 4 4.
Proof. destruct T, o; go 4%nat; store_case at_ Hc Hs. Qed.
Lemma st_i16_44 : stored I16 4 4.
Proof. destruct T, o; [go 2%nat|go 2%nat|go 2%nat|go 2%nat|go 2%nat|go 2%nat]; store_case at_ Hc Hs. Qed.
Lemma st_u8_44 : stored U8 4 4.
Proof. destruct T as [| |v], o; [go 1%nat|go 1%nat|go 2%nat|go 2%nat|destruct v; go 1%nat|destruct v; go 1%nat]; store_case at_ Hc Hs. Qed.
Lemma st_i8_44 : T = Neon -> stored I8 4 4.
Proof. intros ->. destruct o; go 2%nat; store_case at_ Hc Hs. Qed.
Lemma st_i32_14 : stored I32 1 4.
Proof. destruct T, o; go 1%nat; store_case at_ Hc Hs. Qed.
Lemma st_i16_14 : stored I16 1 4.
Proof. destruct T, o; [go 4%nat|go 4%nat|go 1%nat|go 1%nat|go 4%nat|go 4%nat]; store_case at_ Hc Hs. Qed.
Lemma st_u8_14 : stored U8 1 4.
Proof. destruct T as [| |v], o; [go 1%nat|go 1%nat|go 1%nat|go 1%nat|destruct v; go 1%nat|destruct v; go 1%nat]; store_case at_ Hc Hs. Qed.
Lemma st_i8_14 : T = Neon -> stored I8 1 4.
Proof. intros ->. destruct o; go 1%nat; store_case at_ Hc Hs. Qed.
Lemma st_i32_81 : stored I32 8 1.
Proof. destruct T, o; go 2%nat; store_case at_ Hc Hs. Qed.
Lemma st_i16_81 : stored I16 8 1.
Proof. destruct T, o; [go 1%nat|go 1%nat|go 1%nat|go 1%nat|go 1%nat|go 1%nat]; store_case at_ Hc Hs. Qed.
Lemma st_u8_81 : stored U8 8 1.
Proof. destruct T as [| |v], o; [go 2%nat|go 2%nat|go 1%nat|go 1%nat|destruct v; go 2%nat|destruct v; go 2%nat]; store_case at_ Hc Hs. Qed.
Lemma st_i8_81 : T = Neon -> stored I8 8 1.
Proof. intros ->. destruct o; go 1%nat; store_case at_ Hc Hs. Qed.
Lemma st_i32_41 : stored I32 4 1.
Proof. destruct T, o; go 1%nat; store_case at_ Hc Hs. Qed.
Lemma st_i16_41 : stored I16 4 1.
Proof. destruct T, o; [go 4%nat|go 4%nat|go 1%nat|go 1%nat|go 4%nat|go 4%nat]; store_case at_ Hc Hs. Qed.
Lemma st_u8_41 : stored U8 4 1.
Proof. destruct T as [| |v], o; [go 1%nat|go 1%nat|go 1%nat|go 1%nat|destruct v; go 1%nat|destruct v; go 1%nat]; store_case at_ Hc Hs. Qed.
Lemma st_i8_41 : T = Neon -> stored I8 4 1.
Proof. intros ->. destruct o; go 1%nat; store_case at_ Hc Hs. Qed.
Lemma st_i32_88 : stored I32 8 8.
Proof. destruct T, o; go 16%nat; store_case at_ Hc Hs. Qed.
Lemma st_i16_88 : stored I16 8 8.
Proof. destruct T, o; [go 8%nat|go 8%nat|go 8%nat|go 8%nat|go 8%nat|go 8%nat]; store_case at_ Hc Hs. Qed.
Lemma st_u8_88 : stored U8 8 8.
Proof. destruct T as [| |v], o; [go 4%nat|go 4%nat|go 8%nat|go 8%nat|destruct v; go 4%nat|destruct v; go 4%nat]; store_case at_ Hc Hs. Qed.
Lemma st_i8_88 : T = Neon -> stored I8 8 8.
Proof. intros ->. destruct o; go 8%nat; store_case at_ Hc Hs. Qed.
End Cases.

Definition ty_ok (T : simd) (t : sty) : Prop := t = I8 -> T = Neon.
Lemma store_spec T b dst row col :
  store_shape (s_rows b) (s_cols b) -> ty_ok T (s_ty b) ->
  Z.of_nat (length (s_regs b)) = s_count b / lanes_of T (s_ty b) (s_count b) ->
  exists log, StoreFinalOutputV T b dst row col = Some log /\
    covers (fun i j => (mm_addr dst (row + i) (col + j), entry T b i j)) (in_rect 0 (s_rows b) 0 (s_cols b)) log.
Proof.
  destruct b as [t R C l]. unfold s_count, ty_ok. cbn [s_rows s_cols s_ty s_regs]. intros HS HT Hl.
  set (at_ := fun r c => mm_addr dst (row + r) (col + c)).
  assert (Hc : contig (mm_order dst) at_).
  { intros r c i. unfold at_, mm_addr, mm_rows_stride, mm_cols_stride. destruct (mm_order dst); ring. }
  assert (Hs : strided (mm_order dst) at_ (mm_stride dst)).
  { intros r c i. unfold at_, mm_addr, mm_rows_stride, mm_cols_stride. destruct (mm_order dst); ring. }
  enough (G : stored T (mm_order dst) at_ (mm_stride dst) t R C) by exact (G l Hl).
  destruct HS as [(-> & ->) | [(-> & ->) | [(-> & ->) | [(-> & ->) | [(-> & ->) | (-> & ->)]]]]]; destruct t;
  first [ now eapply st_i32_84 | now eapply st_i32_44 | now eapply st_i32_14 | now eapply st_i32_81 | now eapply st_i32_41 | now eapply st_i32_88
        | now eapply st_i16_84 | now eapply st_i16_44 | now eapply st_i16_14 | now eapply st_i16_81 | now eapply st_i16_41 | now eapply st_i16_88
        | now eapply st_u8_84 | now eapply st_u8_44 | now eapply st_u8_14 | now eapply st_u8_81 | now eapply st_u8_41 | now eapply st_u8_88
        | apply st_i8_84; auto; fail | apply st_i8_44; auto; fail | apply st_i8_14; auto; fail | apply st_i8_81; auto; fail | apply st_i8_41; auto; fail | apply st_i8_88; auto; fail ].
Qed.
