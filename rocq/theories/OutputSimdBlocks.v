(* OutputSimdBlocks.v: blocks of int32 registers: loading, broadcasting, and the
   operations on them, entry by entry *)
From Verif Require Import Base BaseLemmas CommonModel PackModel ComputeModel FixedPointModel FixedPointSpec FixedPointProofs OutputModel OutputProofs
  UnpackModel UnpackProofs SimdModel SimdProofs SimdProofs2 OutputSimdModel OutputSimdLanes.

(* ------------------------------------------------------------------ *)
(* lanes of the register operations *)
Section LaneOps.
Variables (T : simd) (i : Z).
Hypothesis Hi : 0 <= i < 4.
Local Notation g := (get 32 i).
Let W : w1632 32 := or_intror eq_refl.
Let L : 0 <= i < lanes 32 := Hi.
Lemma l_dup x : g (rDup T x) = wrapS 32 x.
Proof. destruct T; [exact (g_dup 32 i W L x)|exact (g_ndup 32 i W L x)|exact (g_ndup 32 i W L x)]. Qed.
Lemma l_add a b : g (rAdd T a b) = wrapS 32 (g a + g b).
Proof. destruct T; exact (g_add 32 i W L a b). Qed.
Lemma l_sub a b : g (rSub T a b) = wrapS 32 (g a - g b).
Proof. destruct T; exact (g_sub 32 i W L a b). Qed.
Lemma l_mul a b : g (rMul T a b) = wrapS 32 (g a * g b).
Proof. destruct T; exact (g_mul 32 i W L a b). Qed.
Lemma l_muln a x : g (rMulN T a x) = wrapS 32 (g a * wrapS 32 x).
Proof.
  rewrite <- (l_dup x). destruct T; exact (g_mul 32 i W L a _).
Qed.
Lemma minmax_fits (f : Z -> Z -> Z) a b : f (g a) (g b) = g a \/ f (g a) (g b) = g b -> wrapS 32 (f (g a) (g b)) = f (g a) (g b).
Proof. intros [-> | ->]; apply wrapS_get; lia. Qed.
Lemma l_min a b : g (rMin T a b) = Z.min (g a) (g b).
Proof. unfold rMin. rewrite get_map2 by (lia || exact L). apply minmax_fits. lia. Qed.
Lemma l_max a b : g (rMax T a b) = Z.max (g a) (g b).
Proof. unfold rMax. rewrite get_map2 by (lia || exact L). apply minmax_fits. lia. Qed.
Lemma l_duplane k a : g (rDupLane T k a) = get 32 k a.
Proof. unfold rDupLane. rewrite get_pack by (lia || exact L). apply wrapS_get. lia. Qed.
Lemma l_mla acc a b : g (vmlaq acc a b) = wrapS 32 (g acc + g a * g b).
Proof. unfold vmlaq. rewrite get_pack by (lia || exact L). reflexivity. Qed.
Lemma l_muladdn a x acc : g (rMulAddN T a x acc) = wrapS 32 (g acc + g a * wrapS 32 x).
Proof.
  unfold rMulAddN. pose proof (l_dup x) as D. destruct T.
  - unfold rMulN, sse_Add, sse_Mul, mm_add, mm_mullo. rewrite (g_add 32 i W L), (g_mul 32 i W L), D. apply wrapS_add_r. lia.
  - rewrite l_mla. exact (f_equal (fun z => wrapS 32 (g acc + g a * z)) D).
  - rewrite l_mla. exact (f_equal (fun z => wrapS 32 (g acc + g a * z)) D).
Qed.
Lemma l_muladdlane k a b acc : g (rMulAddLane T k a b acc) = wrapS 32 (g acc + g a * get 32 k b).
Proof.
  unfold rMulAddLane. pose proof (l_duplane k b) as D. destruct T.
  - unfold rMulLane, rMul, sse_Add, sse_Mul, mm_add, mm_mullo. rewrite (g_add 32 i W L), (g_mul 32 i W L), D. apply wrapS_add_r. lia.
  - rewrite l_mla. exact (f_equal (fun z => wrapS 32 (g acc + g a * z)) D).
  - rewrite l_mla. exact (f_equal (fun z => wrapS 32 (g acc + g a * z)) D).
Qed.
End LaneOps.

Lemma norm_wrap m w z y : 1 <= w -> norm m w z = Some y -> y = wrapS w z /\ fits w y.
Proof.
  intros Hw H. destruct m; cbn [norm] in H.
  - injection H as <-. split; [reflexivity|]. apply fits_int. now apply wrapS_range.
  - destruct (in_int w z) eqn:E; [|discriminate]. injection H as <-. unfold in_int in E.
    split; [symmetry; apply wrapS_small; lia|]. apply fits_int. lia.
Qed.
Lemma fits_wrap x : fits 32 x -> wrapS 32 x = x.
Proof. intros H. apply wrapS_small; [lia|]. now apply fits_int. Qed.

Lemma nthZ_map f n i : 0 <= i < n -> nthZ (map f (zrange n)) i = f i.
Proof.
  intros H. unfold nthZ. apply nth_error_nth. rewrite nth_error_map, zrange_nth by exact H. reflexivity.
Qed.
Lemma zrange_length n : 0 <= n -> Z.of_nat (length (zrange n)) = n.
Proof. intros H. unfold zrange. rewrite map_length, seq_length. lia. Qed.
Lemma nthZ_mapl f l i : 0 <= i < Z.of_nat (length l) -> nthZ (map f l) i = f (nthZ l i).
Proof.
  intros H. unfold nthZ. rewrite (nth_indep (map f l) 0 (f 0)) by (rewrite map_length; lia). apply map_nth.
Qed.

(* ------------------------------------------------------------------ *)
(* blocks *)
Definition vtile (R C : Z) : Prop :=
  R = 8 /\ C = 4 \/ R = 4 /\ C = 4 \/ R = 1 /\ C = 4 \/ R = 8 /\ C = 1 \/ R = 4 /\ C = 1.
Definition cell (b : sblock) (r c : Z) : Z :=
  if s_count b =? 1 then sreg b 0 else get 32 ((r + s_rows b * c) mod 4) (sreg b ((r + s_rows b * c) / 4)).
Definition sview (b : sblock) (br bc R C : Z) (g : Z -> Z -> Z) : Prop :=
  s_ty b = I32 /\ s_rows b = br /\ s_cols b = bc /\
  Z.of_nat (length (s_regs b)) = (if br * bc =? 1 then 1 else br * bc / 4) /\
  forall i j, 0 <= i < R -> 0 <= j < C ->
    cell b (if br =? 1 then 0 else i) (if bc =? 1 then 0 else j) = g i j /\ fits 32 (g i j).
Definition sub (br bc R C : Z) : Prop := (br = R \/ br = 1) /\ (bc = C \/ bc = 1).

Lemma sview_ext b br bc R C g h : (forall i j, 0 <= i < R -> 0 <= j < C -> g i j = h i j) ->
  sview b br bc R C g -> sview b br bc R C h.
Proof.
  intros E (H1 & H2 & H3 & H4 & H5). do 4 (split; [assumption|]). intros i j Hi Hj. rewrite <- E by assumption. now apply H5.
Qed.

(* the shapes a vector and its operations take *)
Definition shapes : list (Z * Z) := [(8, 4); (4, 4); (1, 4); (8, 1); (4, 1); (1, 1)].

(* same operation on every register *)
Lemma regs_map b br bc R C g h f1 (fv : Z -> option Z) fu : In (br, bc) shapes -> sub br bc R C -> 0 < R -> 0 < C ->
  sview b br bc R C g ->
  (forall A, fv A = Some (fu A)) ->
  (forall A k i j, 0 <= k < 4 -> 0 <= i < R -> 0 <= j < C -> get 32 k A = g i j -> get 32 k (fu A) = h i j) ->
  (br = 1 /\ bc = 1 -> forall i j, 0 <= i < R -> 0 <= j < C -> f1 (g i j) = Some (h i j) /\ fits 32 (h i j)) ->
  exists b', map_regs f1 fv b = Some b' /\ sview b' br bc R C h.
Proof.
  intros HS HB HR HC HV Hfv Hk H1. destruct b as [t r c l]. destruct HV as (E1 & E2 & E3 & E4 & E5).
  cbn [s_ty s_rows s_cols s_regs] in *. subst t r c. unfold map_regs, is_1x1. cbn [s_ty s_rows s_cols s_regs].
  destruct ((br =? 1) && (bc =? 1)) eqn:E.
  - assert (br = 1) by lia. assert (bc = 1) by lia. subst br bc. cbn in E4.
    destruct l as [|x [|y l]]; cbn [length] in E4; try lia.
    destruct (E5 0 0 ltac:(lia) ltac:(lia)) as (C0 & _). unfold cell, s_count, sreg in C0. cbn in C0. subst x.
    destruct (H1 (conj eq_refl eq_refl) 0 0 ltac:(lia) ltac:(lia)) as (F0 & G0).
    cbn [mapM]. rewrite F0. cbn [bind]. eexists. split; [reflexivity|].
    split; [reflexivity|]. split; [reflexivity|]. split; [reflexivity|]. split; [reflexivity|]. intros i j H H0. split.
    + cbn. destruct (H1 (conj eq_refl eq_refl) i j H H0) as (F1 & _).
      destruct (E5 i j H H0) as (C1 & _). unfold cell, s_count, sreg in C1. cbn in C1. rewrite <- C1 in F1. congruence.
    + now apply H1.
  - rewrite (mapM_some fv fu l) by (intros; apply Hfv). cbn [bind].
    assert (N : (br * bc =? 1) = false) by (destruct HS as [[= <- <-] | [[= <- <-] | [[= <- <-] | [[= <- <-] | [[= <- <-] | [[= <- <-] | []]]]]]]; reflexivity || discriminate E).
    eexists. split; [reflexivity|]. split; [reflexivity|]. split; [reflexivity|]. split; [reflexivity|].
    cbn [s_regs]. rewrite map_length. split; [exact E4|].
    intros i j Hi Hj. destruct (E5 i j Hi Hj) as (C1 & _). unfold cell, s_count, sreg in *. cbn [s_rows s_cols s_regs] in *.
    rewrite N in *.
    set (p := (if br =? 1 then 0 else i) + br * (if bc =? 1 then 0 else j)) in *.
    assert (B : 0 <= p / 4 < Z.of_nat (length l)).
    { rewrite E4. subst p. destruct HB as (B1 & B2).
      destruct HS as [[= <- <-] | [[= <- <-] | [[= <- <-] | [[= <- <-] | [[= <- <-] | [[= <- <-] | []]]]]]]; try discriminate N; cbn [Z.eqb Pos.eqb]; lia. }
    rewrite nthZ_mapl by exact B. assert (0 <= p mod 4 < 4) by lia.
    rewrite (Hk _ (p mod 4) i j) by assumption. split; [reflexivity|].
    rewrite <- (Hk _ (p mod 4) i j H Hi Hj C1). apply get_fits. lia.
Qed.

(* ------------------------------------------------------------------ *)
(* broadcasting *)
Ltac one_in H := repeat match type of H with context [?a * ?b =? 1] => let v := eval vm_compute in (a * b =? 1) in change (a * b =? 1) with v in H end.
Ltac one_goal := repeat match goal with |- context [?a * ?b =? 1] => let v := eval vm_compute in (a * b =? 1) in change (a * b =? 1) with v end.
Lemma bcast T op1 opv ov (P : Z -> Z -> Prop) l r lr lc rr rc R C gl gr g :
  (forall A B, opv A B = Some (ov A B)) ->
  (forall A B k z, 0 <= k < 4 -> P (get 32 k A) (get 32 k B) -> op1 (get 32 k A) (get 32 k B) = Some z -> get 32 k (ov A B) = z) ->
  0 < R -> 0 < C -> sub lr lc R C ->
  (lr = 1 /\ lc = 1 /\ rr = 1 /\ rc = 1) \/ In ((lr, lc), (rr, rc)) bcast_shapes ->
  sview l lr lc R C gl -> sview r rr rc R C gr ->
  (forall i j, 0 <= i < R -> 0 <= j < C -> P (gl i j) (gr i j) /\ op1 (gl i j) (gr i j) = Some (g i j) /\ (lr = 1 /\ lc = 1 -> fits 32 (g i j))) ->
  exists b, BroadcastV T op1 opv l r = Some b /\ sview b lr lc R C g.
Proof.
  intros Hopv Hov HR HC HB HS HL HRr H.
  destruct l as [t1 r1 c1 ll]. destruct HL as (E1 & E2 & E3 & E4 & E5). cbn [s_ty s_rows s_cols s_regs] in *. subst t1 r1 c1.
  destruct r as [t2 r2 c2 rl]. destruct HRr as (F1 & F2 & F3 & F4 & F5). cbn [s_ty s_rows s_cols s_regs] in *. subst t2 r2 c2.
  unfold cell, s_count, sreg in *. cbn [s_rows s_cols s_regs] in *.
  destruct HS as [(-> & -> & -> & ->) | HS].
  - cbn in E4, F4. destruct ll as [|x [|x' ll]]; cbn [length] in E4; try lia. destruct rl as [|y [|y' rl]]; cbn [length] in F4; try lia.
    clear E4 F4. cbn in E5, F5.
    destruct (H 0 0 ltac:(lia) ltac:(lia)) as (P0 & O0 & G0).
    pose proof (proj1 (E5 0 0 ltac:(lia) ltac:(lia))) as X0. pose proof (proj1 (F5 0 0 ltac:(lia) ltac:(lia))) as Y0.
    assert (E : BroadcastV T op1 opv (mk_sblock I32 1 1 [x]) (mk_sblock I32 1 1 [y]) = Some (mk_sblock I32 1 1 [g 0 0])).
    { unfold BroadcastV. change (ShouldFlipV _ _) with false. cbv iota. unfold BroadcastImplV. change (is_1x1 _ && is_1x1 _) with true. cbv iota.
      rewrite <- X0, <- Y0 in O0.
      unfold BroadcastImpl, to_block, block_init, of_block. cbn.
      change (map Z.of_nat (seq 0 (Pos.to_nat 1))) with [0]. cbn [mapM]. change (0 mod 1 + 0 / 1 * 1) with 0. cbn. rewrite O0. reflexivity. }
    rewrite E. eexists. split; [reflexivity|]. do 4 (split; [reflexivity|]).
    intros i j Hi Hj. destruct (H i j Hi Hj) as (_ & Oij & Gij). split; [|now apply Gij].
    cbn. pose proof (proj1 (E5 i j Hi Hj)) as X1. pose proof (proj1 (F5 i j Hi Hj)) as Y1. congruence.
  - assert (K : forall q, In q [1; 2; 8] -> forall f : Z -> Z, Z.of_nat (length (map f (zrange q))) = q).
    { intros q Hq f. rewrite map_length. apply zrange_length. cbn in Hq. lia. }
    assert (G : forall q k i j, 0 <= i < R -> 0 <= j < C -> 0 <= k < 4 ->
      get 32 k (nthZ ll q) = gl i j -> get 32 k (expand T (mk_sblock I32 lr lc ll) (mk_sblock I32 rr rc rl) q) = gr i j ->
      get 32 k (ov (nthZ ll q) (expand T (mk_sblock I32 lr lc ll) (mk_sblock I32 rr rc rl) q)) = g i j).
    { intros q k i j Hi Hj Hk EA EB. destruct (H i j Hi Hj) as (Pij & Oij & _). apply Hov; [exact Hk| |]; rewrite EA, EB; assumption. }
    destruct HB as (B1 & B2).
    cbn [bcast_shapes In] in HS.
    repeat (destruct HS as [HS | HS]; [injection HS as <- <- <- <-|]); try contradiction;
      (eexists; split;
       [ unfold BroadcastV; change (ShouldFlipV _ _) with false; cbv iota; unfold BroadcastImplV; change (is_1x1 _ && is_1x1 _) with false; cbv iota;
         change (has_bcast _ _) with true; cbv iota; 
         rewrite (mapM_some _ (fun i => ov (nthZ ll i) (expand T _ _ i))) by (intros; apply Hopv); reflexivity
       | do 3 (split; [reflexivity|]); cbn [s_regs s_rows s_cols];
         match goal with |- context [zrange ?n] => let v := eval vm_compute in n in change n with v end;
         split; [rewrite map_length, zrange_length by lia; reflexivity|];
         intros i j Hi Hj; destruct (E5 i j Hi Hj) as (C1 & _); destruct (F5 i j Hi Hj) as (C2 & D2);
         unfold cell, s_count, sreg; cbn [s_rows s_cols s_regs];
         one_in C1; one_in C2; one_goal; cbn [Z.eqb Pos.eqb] in C1, C2 |- *;
         rewrite nthZ_map by lia;
         match goal with |- get 32 ?k ?V = _ /\ _ =>
           assert (Q : get 32 k V = g i j);
           [ apply G; [exact Hi|exact Hj|lia|exact C1|] | split; [exact Q|rewrite <- Q; apply get_fits; lia]]
         end;
         unfold expand, is_1x1, shape_eqb, sreg; cbn [s_rows s_cols s_regs fst snd Z.eqb Pos.eqb andb];
         change (8 / 4) with 2; change (4 / 4) with 1; rewrite <- C2;
         first [ rewrite l_dup by lia; rewrite C2; now apply fits_wrap
               | rewrite l_duplane by lia; apply f_equal2; [lia|f_equal; lia]
               | apply f_equal2; [lia|f_equal; lia] ] ]).
Qed.

Lemma MulAdd_wrap m x y a z : MulAdd m x y a = Some z ->
  z = wrapS 32 (a + x * y) /\ fits 32 z /\ exists p, Mul m 32 x y = Some p /\ wrapS 32 p = wrapS 32 (x * y).
Proof.
  unfold MulAdd, Mul. intros H. apply bind_some in H. destruct H as (p & Hp & Hz).
  pose proof (norm_wrap m 32 _ _ ltac:(lia) Hp) as (-> & _). apply norm_wrap in Hz; [|lia]. destruct Hz as (-> & F).
  split; [apply wrapS_add_r; lia|]. split; [exact F|]. exists (wrapS 32 (x * y)). split; [exact Hp|]. apply wrapS_idem. lia.
Qed.
Definition mul_pairs (R C : Z) : list ((Z * Z) * (Z * Z)) :=
  [((1, 1), (1, 1))] ++ (if R =? 1 then [] else [((R, 1), (1, 1))]) ++
  (if C =? 1 then [] else [((1, C), (1, 1))]) ++ (if (R =? 1) || (C =? 1) then [] else [((R, 1), (1, C))]).
Lemma vtile_pos R C : vtile R C -> 0 < R /\ 0 < C.
Proof. unfold vtile. lia. Qed.

Lemma muladd_impl T m l r acc lr lc rr rc R C gl gr ga g : vtile R C ->
  sview acc R C R C ga -> In ((lr, lc), (rr, rc)) (mul_pairs R C) ->
  sview l lr lc R C gl -> sview r rr rc R C gr ->
  (forall i j, 0 <= i < R -> 0 <= j < C -> MulAdd m (gl i j) (gr i j) (ga i j) = Some (g i j)) ->
  exists b, BroadcastMulAddImplV T m l r acc = Some b /\ sview b R C R C g.
Proof.
  intros HT HA HS HL HR H.
  destruct l as [t1 r1 c1 ll]. destruct HL as (E1 & E2 & E3 & _ & E5). cbn [s_ty s_rows s_cols s_regs] in *. subst t1 r1 c1.
  destruct r as [t2 r2 c2 rl]. destruct HR as (F1 & F2 & F3 & _ & F5). cbn [s_ty s_rows s_cols s_regs] in *. subst t2 r2 c2.
  destruct acc as [t3 r3 c3 al]. destruct HA as (A1 & A2 & A3 & _ & A5). cbn [s_ty s_rows s_cols s_regs] in *. subst t3 r3 c3.
  unfold cell, s_count, sreg in *. cbn [s_rows s_cols s_regs] in *.
  destruct (MulAdd_wrap m _ _ _ _ (H 0 0 ltac:(apply vtile_pos in HT; lia) ltac:(apply vtile_pos in HT; lia))) as (_ & _ & p & Hp & _).
  pose proof (E5 0 0 ltac:(apply vtile_pos in HT; lia) ltac:(apply vtile_pos in HT; lia)) as (X0 & _).
  pose proof (F5 0 0 ltac:(apply vtile_pos in HT; lia) ltac:(apply vtile_pos in HT; lia)) as (Y0 & _).
  destruct HT as [(-> & ->) | [(-> & ->) | [(-> & ->) | [(-> & ->) | (-> & ->)]]]];
    cbn [mul_pairs app orb Z.eqb Pos.eqb In] in HS;
    repeat (destruct HS as [HS | HS]; [injection HS as <- <- <- <-|]); try contradiction;
    (unfold BroadcastMulAddImplV; cbn [s_rows s_cols s_regs]; cbv zeta;
     unfold shape_eqb, is_1x1; cbn [fst snd Z.eqb Pos.eqb andb negb s_rows s_cols s_regs];
     unfold sreg, s_count; cbn [s_rows s_cols s_regs];
     match goal with |- context [zrange ?n] => let v := eval vm_compute in n in change n with v end;
     change (8 / 4) with 2; change (4 / 4) with 1;
     one_in X0; one_in Y0; cbn [Z.eqb Pos.eqb] in X0, Y0;
     try (rewrite X0, Y0, Hp; cbn [bind]);
     eexists; (split; [reflexivity|]);
     do 3 (split; [reflexivity|]); cbn [s_regs s_rows s_cols];
     (split; [rewrite map_length, zrange_length by lia; reflexivity|]);
     intros i j Hi Hj; destruct (E5 i j Hi Hj) as (C1 & D1); destruct (F5 i j Hi Hj) as (C2 & D2); destruct (A5 i j Hi Hj) as (C3 & D3);
     destruct (MulAdd_wrap m _ _ _ _ (H i j Hi Hj)) as (-> & HF & p' & Hp' & Wp');
     (split; [|exact HF]);
     unfold cell, s_count, sreg; cbn [s_rows s_cols s_regs];
     one_in C1; one_in C2; one_in C3; one_goal; cbn [Z.eqb Pos.eqb] in C1, C2, C3 |- *;
     rewrite nthZ_map by lia;
     repeat first [rewrite l_add by lia | rewrite l_dup by lia | rewrite l_muln by lia | rewrite l_muladdn by lia
                  | rewrite l_muladdlane by lia | rewrite l_duplane by lia];
     rewrite C3;
     repeat match goal with
            | |- context [get 32 ?a (nthZ ll ?b)] =>
                replace (get 32 a (nthZ ll b)) with (gl i j) by (rewrite <- C1; apply f_equal2; [lia|f_equal; lia])
            | |- context [get 32 ?a (nthZ rl ?b)] =>
                replace (get 32 a (nthZ rl b)) with (gr i j) by (rewrite <- C2; apply f_equal2; [lia|f_equal; lia])
            end;
     try (replace p with p' by congruence; rewrite Wp');
     try (rewrite C2; rewrite (fits_wrap _ D2));
     rewrite ?(Z.add_comm (wrapS 32 _)), ?wrapS_add_r by lia; reflexivity).
Qed.
Lemma sview_shape b br bc R C g : sview b br bc R C g -> s_rows b = br /\ s_cols b = bc.
Proof. intros (_ & H2 & H3 & _). auto. Qed.
Lemma muladd T m l r acc lr lc rr rc R C gl gr ga g : vtile R C -> sview acc R C R C ga ->
  ((lr = R \/ lr = 1) /\ lc = 1 /\ rr = 1 /\ (rc = C \/ rc = 1)) \/ ((rr = R \/ rr = 1) /\ rc = 1 /\ lr = 1 /\ (lc = C \/ lc = 1)) ->
  sview l lr lc R C gl -> sview r rr rc R C gr ->
  (forall i j, 0 <= i < R -> 0 <= j < C -> MulAdd m (gl i j) (gr i j) (ga i j) = Some (g i j)) ->
  exists b, BroadcastMulAddV T m l r acc = Some b /\ sview b R C R C g.
Proof.
  intros HT HA HS HL HR H.
  assert (D : In ((lr, lc), (rr, rc)) (mul_pairs R C) /\ ShouldFlipV l r = false \/
              In ((rr, rc), (lr, lc)) (mul_pairs R C) /\ ShouldFlipV l r = true).
  { unfold ShouldFlipV, s_count. destruct (sview_shape _ _ _ _ _ _ HL) as (-> & ->). destruct (sview_shape _ _ _ _ _ _ HR) as (-> & ->).
    destruct HT as [(-> & ->) | [(-> & ->) | [(-> & ->) | [(-> & ->) | (-> & ->)]]]];
    destruct HS as [([-> | ->] & -> & -> & [-> | ->]) | ([-> | ->] & -> & -> & [-> | ->])];
    cbn; (left; split; [tauto|reflexivity]) || (right; split; [tauto|reflexivity]). }
  unfold BroadcastMulAddV. destruct D as [(D & ->) | (D & ->)].
  - exact (muladd_impl T m l r acc lr lc rr rc R C gl gr ga g HT HA D HL HR H).
  - apply (muladd_impl T m r l acc rr rc lr lc R C gr gl ga g HT HA D HR HL). intros i j Hi Hj. rewrite MulAdd_comm. now apply H.
Qed.

(* ------------------------------------------------------------------ *)
(* loading *)
Lemma load4 (src : mem) a f : (forall i, 0 <= i < 4 -> src (a + i) = Some (f i)) ->
  exists v, LoadInt32x4 src a = Some v /\ forall k, 0 <= k < 4 -> get 32 k v = wrapS 32 (f k).
Proof.
  intros H. unfold LoadInt32x4. rewrite (mapM_some _ f) by (intros i Hi; apply zrange_In in Hi; now apply H). cbn [bind].
  eexists. split; [reflexivity|]. intros k Hk.
  rewrite get_regl by (try rewrite map_length, zrange_length by lia; lia). now rewrite nthZ_map by lia.
Qed.
Lemma mapM_ex {A} (f : Z -> option A) (P : Z -> A -> Prop) n : 0 <= n -> (forall i, 0 <= i < n -> exists a, f i = Some a /\ P i a) ->
  exists l, mapM f (zrange n) = Some l /\ Z.of_nat (length l) = n /\
    forall i, 0 <= i < n -> exists a, nth_error l (Z.to_nat i) = Some a /\ P i a.
Proof.
  intros Hn H. unfold zrange.
  assert (G : forall k s, (s + k <= Z.to_nat n)%nat ->
    exists l, mapM f (map Z.of_nat (seq s k)) = Some l /\ length l = k /\
      forall i, (i < k)%nat -> exists a, nth_error l i = Some a /\ P (Z.of_nat (s + i)) a).
  { induction k as [|k IH]; intros s Hs.
    - exists []. split; [reflexivity|]. split; [reflexivity|]. intros; lia.
    - destruct (H (Z.of_nat s) ltac:(lia)) as (a & Ea & Pa). destruct (IH (S s) ltac:(lia)) as (l & El & Ll & Hl).
      exists (a :: l). cbn [seq map mapM]. rewrite Ea. cbn [bind]. rewrite El. cbn [bind]. split; [reflexivity|].
      split; [cbn; lia|]. intros [|i] Hi.
      + exists a. split; [reflexivity|]. now rewrite Nat.add_0_r.
      + destruct (Hl i ltac:(lia)) as (a' & N & Pa'). exists a'. split; [exact N|]. now replace (s + S i)%nat with (S s + i)%nat by lia. }
  destruct (G (Z.to_nat n) O ltac:(lia)) as (l & E & Ll & Hl). exists l. split; [exact E|]. split; [lia|].
  intros i Hi. destruct (Hl (Z.to_nat i) ltac:(lia)) as (a & N & Pa). exists a. split; [exact N|].
  now replace (Z.of_nat (0 + Z.to_nat i)) with i in Pa by lia.
Qed.
Lemma mapM_regs (f : Z -> option Z) (P : Z -> Z -> Prop) n : 0 <= n -> (forall i, 0 <= i < n -> exists a, f i = Some a /\ P i a) ->
  exists l, mapM f (zrange n) = Some l /\ Z.of_nat (length l) = n /\ forall i, 0 <= i < n -> P i (nthZ l i).
Proof.
  intros Hn H. destruct (mapM_ex f P n Hn H) as (l & E & L & Hl). exists l. split; [exact E|]. split; [exact L|].
  intros i Hi. destruct (Hl i Hi) as (a & N & Pa). unfold nthZ. now rewrite (nth_error_nth _ _ _ N).
Qed.
Lemma load_vec_spec v R C pos g : vtile R C ->
  (forall i j, 0 <= i < R -> 0 <= j < C -> vec_get v (pos + pos_of (vec_shape v) i j) = Some (g i j) /\ fits 32 (g i j)) ->
  exists b, LoadForBroadcastingV R C v pos = Some b /\
    sview b (match v with VMap VCol _ => R | _ => 1 end) (match v with VMap VRow _ => C | _ => 1 end) R C g.
Proof.
  intros HT H. pose proof (vtile_pos R C HT) as (HR & HC).
  assert (one : forall x, (forall i j, 0 <= i < R -> 0 <= j < C -> x = g i j /\ fits 32 (g i j)) -> sview (mk_sblock I32 1 1 [x]) 1 1 R C g).
  { intros x Hx. do 4 (split; [reflexivity|]). intros i j Hi Hj. cbn. now apply Hx. }
  destruct v as [sh u | sh x sz].
  - cbn [vec_shape] in H.
    assert (K : forall n h, n = 4 \/ n = 8 -> (forall i, 0 <= i < n -> rd (vm_mem u) (vm_base u + (pos + i)) = Some (h i) /\ fits 32 (h i)) ->
      exists l, load_vec (VMap sh u) pos n = Some l /\ Z.of_nat (length l) = n / 4 /\
        forall q, 0 <= q < n -> get 32 (q mod 4) (nthZ l (q / 4)) = h q).
    { intros n h Hn Hh. unfold load_vec. replace (n =? 1) with false by lia. replace ((n =? 4) || (n =? 8)) with true by lia. cbv iota.
      destruct (mapM_regs (fun k => LoadInt32x4 (vm_mem u) (vm_base u + (pos + 4 * k)))
                  (fun k v => forall i, 0 <= i < 4 -> get 32 i v = h (4 * k + i)) (n / 4)) as (l & E & L & Hl).
      - lia.
      - intros k Hk. destruct (load4 (vm_mem u) (vm_base u + (pos + 4 * k)) (fun i => h (4 * k + i))) as (v & Ev & Gv).
        + intros i Hi. replace (vm_base u + (pos + 4 * k) + i) with (vm_base u + (pos + (4 * k + i))) by lia. apply Hh. lia.
        + exists v. split; [exact Ev|]. intros i Hi. rewrite Gv by exact Hi. apply fits_wrap. apply Hh. lia.
      - exists l. split; [exact E|]. split; [exact L|]. intros q Hq. rewrite (Hl (q / 4) ltac:(lia)) by lia. f_equal. lia. }
    destruct sh; cbn [pos_of] in H; unfold LoadForBroadcastingV.
    + destruct (Z.eq_dec R 1) as [-> | NR].
      * cbn [load_vec]. replace (1 =? 1) with true by reflexivity. cbv iota. destruct (H 0 0 ltac:(lia) ltac:(lia)) as (E0 & _).
        rewrite Z.add_0_r in E0. rewrite E0. cbn [bind]. eexists. split; [reflexivity|]. apply one.
        intros i j Hi Hj. destruct (H i j Hi Hj) as (E1 & F1). replace (pos + i) with pos in E1 by lia. split; [congruence|exact F1].
      * destruct (K R (fun i => g i 0)) as (l & E & L & Hl).
        -- unfold vtile in HT. lia.
        -- intros i Hi. apply (H i 0); lia.
        -- rewrite E. cbn [bind]. eexists. split; [reflexivity|]. do 3 (split; [reflexivity|]). cbn [s_regs].
           split. { rewrite L. replace (R * 1 =? 1) with false by lia. f_equal. lia. }
           intros i j Hi Hj. unfold cell, s_count, sreg. cbn [s_rows s_cols s_regs].
           replace (R * 1 =? 1) with false by lia. replace (R =? 1) with false by lia. cbn [Z.eqb Pos.eqb]. rewrite Z.mul_0_r, Z.add_0_r.
           rewrite Hl by lia. destruct (H i j Hi Hj) as (E1 & F1). destruct (H i 0 Hi ltac:(lia)) as (E2 & F2). split; [congruence|exact F1].
    + destruct (Z.eq_dec C 1) as [-> | NC].
      * cbn [load_vec]. replace (1 =? 1) with true by reflexivity. cbv iota. destruct (H 0 0 ltac:(lia) ltac:(lia)) as (E0 & _).
        rewrite Z.add_0_r in E0. rewrite E0. cbn [bind]. eexists. split; [reflexivity|]. apply one.
        intros i j Hi Hj. destruct (H i j Hi Hj) as (E1 & F1). replace (pos + j) with pos in E1 by lia. split; [congruence|exact F1].
      * destruct (K C (fun j => g 0 j)) as (l & E & L & Hl).
        -- unfold vtile in HT. lia.
        -- intros j Hj. apply (H 0 j); lia.
        -- rewrite E. cbn [bind]. eexists. split; [reflexivity|]. do 3 (split; [reflexivity|]). cbn [s_regs].
           split. { rewrite L. replace (1 * C =? 1) with false by lia. f_equal. lia. }
           intros i j Hi Hj. unfold cell, s_count, sreg. cbn [s_rows s_cols s_regs].
           replace (1 * C =? 1) with false by lia. replace (C =? 1) with false by lia. cbn [Z.eqb Pos.eqb]. rewrite Z.mul_1_l, Z.add_0_l.
           rewrite Hl by lia. destruct (H i j Hi Hj) as (E1 & F1). destruct (H 0 j ltac:(lia) Hj) as (E2 & F2). split; [congruence|exact F1].
  - cbn. eexists. split; [reflexivity|]. apply one. intros i j Hi Hj. destruct (H i j Hi Hj) as (E1 & F1). cbn in E1. split; [congruence|exact F1].
Qed.
Lemma load_col_major R C src M row col g : vtile R C -> mm_order M = ColMajor ->
  (forall i j, 0 <= i < R -> 0 <= j < C -> rd src (mm_addr M row (col + j) + i) = Some (g i j) /\ fits 32 (g i j)) ->
  exists b, LoadColMajorV R C src M row col = Some b /\ sview b R C R C g.
Proof.
  intros HT HO H. unfold LoadColMajorV.
  assert (A : forall i j, mm_addr M (row + i) (col + j) = mm_addr M row (col + j) + i).
  { intros i j. unfold mm_addr, mm_rows_stride. rewrite HO. ring. }
  assert (Q : forall b, s_ty b = I32 -> s_rows b = R -> s_cols b = C -> Z.of_nat (length (s_regs b)) = R * C / 4 ->
    (forall i j, 0 <= i < R -> 0 <= j < C -> get 32 ((i + R * j) mod 4) (sreg b ((i + R * j) / 4)) = g i j) -> sview b R C R C g).
  { intros b B1 B2 B3 B4 B5. do 3 (split; [assumption|]).
    assert (N : (R * C =? 1) = false) by (unfold vtile in HT; nia).
    split. { rewrite N. exact B4. }
    intros i j Hi Hj. split; [|now apply H]. unfold cell, s_count. rewrite B2, B3, N.
    rewrite <- (B5 i j Hi Hj).
    replace (if R =? 1 then 0 else i) with i by (destruct (R =? 1) eqn:E; lia).
    replace (if C =? 1 then 0 else j) with j by (destruct (C =? 1) eqn:E; lia). reflexivity. }
  destruct (Z.eq_dec R 4) as [-> | N4].
  { cbn [Z.eqb Pos.eqb].
    destruct (mapM_regs (fun i => LoadInt32x4 src (mm_addr M row (col + i)))
                (fun k v => forall i, 0 <= i < 4 -> get 32 i v = g i k) C) as (l & E & L & Hl).
    - unfold vtile in HT. lia.
    - intros k Hk. destruct (load4 src (mm_addr M row (col + k)) (fun i => g i k)) as (v & Ev & Gv).
      + intros i Hi. now apply H.
      + exists v. split; [exact Ev|]. intros i Hi. rewrite Gv by exact Hi. apply fits_wrap. now apply H.
    - rewrite E. cbn [bind]. eexists. split; [reflexivity|]. apply Q; try reflexivity; cbn [s_regs].
      + rewrite L. lia.
      + intros i j Hi Hj. unfold sreg. cbn [s_regs]. rewrite (Hl ((i + 4 * j) / 4) ltac:(lia)) by lia. f_equal; lia. }
  replace (R =? 4) with false by lia.
  destruct (Z.eq_dec R 8) as [-> | N8].
  { cbn [Z.eqb Pos.eqb].
    destruct (mapM_regs (fun k => LoadInt32x4 src (mm_addr M (row + 4 * (k mod 2)) (col + k / 2)))
                (fun k v => forall i, 0 <= i < 4 -> get 32 i v = g (4 * (k mod 2) + i) (k / 2)) (2 * C)) as (l & E & L & Hl).
    - unfold vtile in HT. lia.
    - intros k Hk. destruct (load4 src (mm_addr M (row + 4 * (k mod 2)) (col + k / 2)) (fun i => g (4 * (k mod 2) + i) (k / 2))) as (v & Ev & Gv).
      + intros i Hi. rewrite A, <- Z.add_assoc. apply H; lia.
      + exists v. split; [exact Ev|]. intros i Hi. rewrite Gv by exact Hi. apply fits_wrap. apply H; lia.
    - rewrite E. cbn [bind]. eexists. split; [reflexivity|]. apply Q; try reflexivity; cbn [s_regs].
      + rewrite L. lia.
      + intros i j Hi Hj. unfold sreg. cbn [s_regs]. rewrite (Hl ((i + 8 * j) / 4) ltac:(lia)) by lia. f_equal; lia. }
  replace (R =? 8) with false by lia.
  assert (R = 1 /\ C = 4) as (-> & ->) by (unfold vtile in HT; lia). cbn [Z.eqb Pos.eqb andb].
  rewrite (mapM_some _ (fun i => g 0 i)).
  - cbn [bind]. eexists. split; [reflexivity|]. apply Q; try reflexivity.
    intros i j Hi Hj. unfold sreg. cbn [s_regs]. replace ((i + 1 * j) / 4) with 0 by lia. replace ((i + 1 * j) mod 4) with j by lia.
    change (nthZ [?x] 0) with x. rewrite get_regl by (try rewrite map_length, zrange_length by lia; lia).
    rewrite nthZ_map by lia. rewrite fits_wrap by (apply H; lia). f_equal. lia.
  - intros i Hi. apply zrange_In in Hi. destruct (H 0 i ltac:(lia) Hi) as (E1 & _). now rewrite Z.add_0_r in E1.
Qed.
Lemma sview_const b br bc R C g h T m k : In (br, bc) shapes -> sub br bc R C -> 0 < R -> 0 < C -> sview b br bc R C g ->
  (forall i j, 0 <= i < R -> 0 <= j < C -> (if k =? 0 then Some (g i j) else norm m 32 (g i j + k)) = Some (h i j)) ->
  exists b', AddConstantV T m k b = Some b' /\ sview b' br bc R C h.
Proof.
  intros HS HB HR HC HV H. unfold AddConstantV. destruct (k =? 0).
  - exists b. split; [reflexivity|]. apply (sview_ext _ _ _ _ _ g); [|exact HV]. intros i j Hi Hj. specialize (H i j Hi Hj). congruence.
  - apply (regs_map b br bc R C g h _ _ (fun x => rAdd T x (rDup T k)) HS HB HR HC HV).
    + reflexivity.
    + intros A q i j Hq Hi Hj EA. rewrite l_add, l_dup, EA by lia. destruct (norm_wrap m 32 _ _ ltac:(lia) (H i j Hi Hj)) as (-> & _).
      apply wrapS_add_r. lia.
    + intros _ i j Hi Hj. split; [now apply H|]. exact (proj2 (norm_wrap m 32 _ _ ltac:(lia) (H i j Hi Hj))).
Qed.
