From Coq Require Import Permutation.
From Verif Require Import Base BaseLemmas CommonModel CommonProofs PackModel GemmSpec FixedPointModel FixedPointSpec FixedPointProofs
  ComputeModel KernelSpec KernelProofs OutputModel OutputSpec OutputProofs UnpackModel UnpackProofs GemmModel GemmContract
  GemmProofs GemmProofs2 GemmProofs3 GemmProofs4.

Lemma gemm_only_result m K t hw mnt sc scs lhs rhs result lo ro p L R LO RO out before :
  gemm_config_ok m K t hw mnt result ->
  gemm_problem m K (op_mem lhs) (op_map lhs) (op_mem rhs) (op_map rhs) result lo ro p L R LO RO out ->
  valid_view before result ->
  exists phases, DispatchGemmShape m K t hw mnt sc scs lhs rhs result lo ro p = Some phases /\
    forall trace, execution phases trace ->
      exists after, perform trace before = Some after /\
        forall a, after a <> before a -> exists r c, 0 <= r < mm_rows result /\ 0 <= c < mm_cols result /\ a = entry_addr result r c.
Proof.
  intros Hc HP Hv. destruct (gemm_correct m K t hw mnt sc scs _ _ _ _ _ _ _ _ _ _ _ before Hc HP Hv) as (ph & E & _ & H).
  exists ph. split; [exact E|]. intros tr Hx. destruct (H tr Hx) as (after & Ea & H1 & H2). exists after. split; [exact Ea|].
  intros a Ha.
  destruct (in_dec Z.eq_dec a (map (fun q => entry_addr result (fst q) (snd q)) (list_prod (zrange (mm_rows result)) (zrange (mm_cols result))))) as [Hi|Hn].
  - apply in_map_iff in Hi as ([r c] & <- & Hin). apply in_prod_iff in Hin as [A1 A2].
    apply zrange_In in A1. apply zrange_In in A2. exists r, c. auto.
  - exfalso. apply Ha. apply H2. intros r c Hr Hcc ->. apply Hn. apply in_map_iff. exists (r, c). split; [reflexivity|].
    apply in_prod_iff. split; apply zrange_In; assumption.
Qed.

Lemma gemm_in_bounds m K t hw mnt sc scs lhs rhs result lo ro p L R LO RO out :
  gemm_config_ok m K t hw mnt result ->
  gemm_problem m K (op_mem lhs) (op_map lhs) (op_mem rhs) (op_map rhs) result lo ro p L R LO RO out ->
  only_view (op_mem lhs) (op_map lhs) -> only_view (op_mem rhs) (op_map rhs) -> only_vec lo -> only_vec ro -> Forall only_stage p ->
  exists phases, DispatchGemmShape m K t hw mnt sc scs lhs rhs result lo ro p = Some phases /\
    forall phase task a v, In phase phases -> In task phase -> In (a, v) task ->
      exists r c, 0 <= r < mm_rows result /\ 0 <= c < mm_cols result /\ a = entry_addr result r c.
Proof.
  intros Hc HP _ _ _ _ _. destruct (gemm_stores m K t hw mnt sc scs _ _ _ _ _ _ _ _ _ _ _ Hc HP) as (ph & E & HS).
  exists ph. split; [exact E|]. intros phase task a v H1 H2 H3. destruct (HS _ (execution_seq ph)) as (vis & Ef & _ & HI).
  assert (Hin : In (a, v) (flat ph)).
  { unfold flat. apply in_concat. exists (concat phase). split; [apply in_map; exact H1|]. apply in_concat. exists task. auto. }
  rewrite Ef in Hin. apply in_map_iff in Hin as ([r c] & Eq & Hv). injection Eq as <- _. exists r, c. apply HI in Hv. tauto.
Qed.

Lemma gemm_exact K t hw mnt sc scs lhs rhs result lo ro p L R LO RO out before :
  gemm_config_ok Trap K t hw mnt result ->
  gemm_problem Trap K (op_mem lhs) (op_map lhs) (op_mem rhs) (op_map rhs) result lo ro p L R LO RO out ->
  valid_view before result ->
  (forall r c, 0 <= r < mm_rows result -> 0 <= c < mm_cols result ->
     fits 32 (offset_product L R LO RO (mm_cols (op_map lhs)) r c) /\
     pipe_at Trap p r c (offset_product L R LO RO (mm_cols (op_map lhs)) r c) = Some (out r c)) /\
  exists phases, DispatchGemmShape Trap K t hw mnt sc scs lhs rhs result lo ro p = Some phases /\
    forall trace, execution phases trace ->
      exists after, perform trace before = Some after /\ stored before after result out.
Proof.
  intros Hc HP Hv. split.
  - intros r c Hr Hcc. pose proof HP as [P1 P2 P3 P4 P5 P6 P7 P8 P9 P10 P11 P12].
    assert (Hk : 0 < kf_reg (k_fmt K)) by (destruct Hc as ((_&_&_&?&_)&_); assumption).
    destruct P9 as [P9|P9]; [discriminate|].
    pose proof (product_exact _ (kf_reg (k_fmt K)) (mm_cols (op_map lhs)) _ _ LO RO L R r c ltac:(lia) ltac:(lia) P9 Hr Hcc) as Hx.
    assert (Hx' : wrapS 32 (offset_product L R LO RO (mm_cols (op_map lhs)) r c) = offset_product L R LO RO (mm_cols (op_map lhs)) r c).
    { apply Hx.
      - intros d Hd. apply (proj1 P5 r d); lia.
      - intros d Hd. rewrite <- P12. apply (proj1 P6 d c); lia. }
    split.
    + apply fits_int. rewrite <- Hx'. apply wrapS_range. lia.
    + rewrite <- Hx'. apply P10; assumption.
  - destruct (gemm_correct Trap K t hw mnt sc scs _ _ _ _ _ _ _ _ _ _ _ before Hc HP Hv) as (ph & E & _ & H). eauto.
Qed.

Lemma gemm_independent m K1 K2 t1 t2 hw1 hw2 mnt1 mnt2 sc1 sc2 scs1 scs2 lhs rhs result lo ro p L R LO RO out before1 before2 :
  gemm_config_ok m K1 t1 hw1 mnt1 result -> gemm_config_ok m K2 t2 hw2 mnt2 result ->
  gemm_problem m K1 (op_mem lhs) (op_map lhs) (op_mem rhs) (op_map rhs) result lo ro p L R LO RO out ->
  gemm_problem m K2 (op_mem lhs) (op_map lhs) (op_mem rhs) (op_map rhs) result lo ro p L R LO RO out ->
  valid_view before1 result -> valid_view before2 result ->
  exists phases1 phases2,
    DispatchGemmShape m K1 t1 hw1 mnt1 sc1 scs1 lhs rhs result lo ro p = Some phases1 /\
    DispatchGemmShape m K2 t2 hw2 mnt2 sc2 scs2 lhs rhs result lo ro p = Some phases2 /\
    forall trace1 trace2, execution phases1 trace1 -> execution phases2 trace2 ->
      exists after1 after2, perform trace1 before1 = Some after1 /\ perform trace2 before2 = Some after2 /\
        (forall r c, 0 <= r < mm_rows result -> 0 <= c < mm_cols result ->
           after1 (entry_addr result r c) = after2 (entry_addr result r c)) /\
        ((forall a, before1 a = before2 a) -> forall a, after1 a = after2 a).
Proof.
  intros C1 C2 P1 P2 V1 V2.
  destruct (gemm_correct m K1 t1 hw1 mnt1 sc1 scs1 _ _ _ _ _ _ _ _ _ _ _ before1 C1 P1 V1) as (ph1 & E1 & _ & H1).
  destruct (gemm_correct m K2 t2 hw2 mnt2 sc2 scs2 _ _ _ _ _ _ _ _ _ _ _ before2 C2 P2 V2) as (ph2 & E2 & _ & H2).
  exists ph1, ph2. split; [exact E1|]. split; [exact E2|]. intros tr1 tr2 X1 X2.
  destruct (H1 tr1 X1) as (a1 & Ea1 & S1). destruct (H2 tr2 X2) as (a2 & Ea2 & S2).
  exists a1, a2. split; [exact Ea1|]. split; [exact Ea2|]. split.
  - intros r c Hr Hc. destruct S1 as [S1 _], S2 as [S2 _]. rewrite S1, S2 by assumption. reflexivity.
  - intros Hb a. apply (stored_unique before1 a1 a2 result out S1). destruct S2 as [A B]. split; [exact A|].
    intros x Hx. rewrite (B x Hx). symmetry. apply Hb.
Qed.

Lemma dispatch_single m K t hw sc scs lhs rhs result lo ro p phases : phases <> [] ->
  DispatchGemmShape m K t hw 1 sc scs lhs rhs result lo ro p = Some phases -> exists log, phases = [[log]].
Proof.
  intros Hne.
  assert (M : forall lhs rhs result lo ro p ph, MultiThreadGemm m K t hw 1 sc scs lhs rhs result lo ro p = Some ph -> exists log, ph = [[log]]).
  { clear. intros lhs rhs result lo ro p ph. unfold MultiThreadGemm, HowManyThreads. cbv zeta.
    intros H. do 5 (apply bind_some in H as (? & _ & H)). change (1 =? 1) with true in H. cbn [bind] in H.
    change (1 =? 1) with true in H. cbv iota in H. apply bind_some in H as (l & _ & H). injection H as <-. eauto. }
  unfold DispatchGemmShape. cbv zeta. intros H. apply bind_some in H as (u & _ & H).
  destruct ((mm_rows result =? 0) || (mm_cols result =? 0) || (mm_cols (op_map lhs) =? 0)); [congruence|].
  destruct (mm_rows result <? mm_cols result).
  - apply bind_some in H as (u' & _ & H). destruct (_ || _ || _) in H; [congruence|].
    destruct (_ <? _) in H; [discriminate|]. eapply M. exact H.
  - eapply M. exact H.
Qed.

Lemma gemm_multi_single m K t hw mnt sc scs sc1 scs1 lhs rhs result lo ro p L R LO RO out before :
  gemm_config_ok m K t hw mnt result ->
  gemm_problem m K (op_mem lhs) (op_map lhs) (op_mem rhs) (op_map rhs) result lo ro p L R LO RO out ->
  valid_view before result ->
  exists log after, DispatchGemmShape m K t hw 1 sc1 scs1 lhs rhs result lo ro p = Some [[log]] /\ perform log before = Some after /\
  exists phases, DispatchGemmShape m K t hw mnt sc scs lhs rhs result lo ro p = Some phases /\
    forall trace, execution phases trace ->
      exists after', perform trace before = Some after' /\ forall a, after' a = after a.
Proof.
  intros C HP V. assert (C1 : gemm_config_ok m K t hw 1 result).
  { destruct C as (A1 & A2 & A2p & A3 & _). split; [exact A1|]. split; [exact A2|]. split; [exact A2p|]. split; [exact A3|]. left. reflexivity. }
  destruct (gemm_stores m K t hw 1 sc1 scs1 _ _ _ _ _ _ _ _ _ _ _ C1 HP) as (ph1 & E1 & S1).
  destruct (dispatch_single m K t hw sc1 scs1 lhs rhs result lo ro p ph1) as (log & Elog); [|exact E1|].
  { intros ->. destruct (S1 [] ex_nil) as (vis & Ev & _ & HI). destruct vis; [|discriminate].
    pose proof (gp_pos _ _ _ _ _ _ _ _ _ _ _ _ _ _ _ HP) as (A & B & _). apply (HI 0 0). lia. }
  subst ph1. pose proof (S1 _ (execution_seq [[log]])) as HS. unfold flat in HS. cbn [map concat] in HS. rewrite !app_nil_r in HS.
  destruct (stores_once_stored result out log before V HS) as (after & Ea & Hst).
  exists log, after. split; [exact E1|]. split; [exact Ea|].
  destruct (gemm_correct m K t hw mnt sc scs _ _ _ _ _ _ _ _ _ _ _ before C HP V) as (ph & E & _ & H).
  exists ph. split; [exact E|]. intros tr X. destruct (H tr X) as (a' & Ea' & Hst'). exists a'. split; [exact Ea'|].
  exact (stored_unique before a' after result out Hst' Hst).
Qed.

Lemma gemm_transposed m K t hw mnt sc scs sc' scs' lhs rhs result lo ro p L R LO RO out before :
  gemm_config_ok m K t hw mnt result ->
  gemm_problem m K (op_mem lhs) (op_map lhs) (op_mem rhs) (op_map rhs) result lo ro p L R LO RO out ->
  valid_view before result ->
  exists phases phases',
    DispatchGemmShape m K t hw mnt sc scs lhs rhs result lo ro p = Some phases /\
    DispatchGemmShape m K t hw mnt sc' scs' (tr_operand rhs) (tr_operand lhs) (tr_map result) (tr_vec ro) (tr_vec lo) (map tr_stage p) = Some phases' /\
    forall trace trace', execution phases trace -> execution phases' trace' ->
      exists after after', perform trace before = Some after /\ perform trace' before = Some after' /\
        stored before after result out /\ forall a, after' a = after a.
Proof.
  intros C HP V.
  destruct (gemm_correct m K t hw mnt sc scs _ _ _ _ _ _ _ _ _ _ _ before C HP V) as (ph & E & _ & H).
  assert (C' : gemm_config_ok m K t hw mnt (tr_map result)).
  { destruct C as (A1 & A2 & A2p & A3 & A4). split; [exact A1|]. split; [exact A2|]. split; [exact A2p|]. split; [exact A3|].
    cbn [tr_map mm_rows mm_cols]. rewrite Z.max_comm. exact A4. }
  assert (V' : valid_view before (tr_map result)).
  { destruct V as [V1 V2]. split.
    - intros r c Hr Hc. rewrite tr_entry_addr. cbn in Hr, Hc. apply V1; assumption.
    - cbn. destruct (mm_order result); exact V2. }
  destruct (gemm_correct m K t hw mnt sc' scs' (tr_operand rhs) (tr_operand lhs) (tr_map result) (tr_vec ro) (tr_vec lo) (map tr_stage p)
     (fun r d => R d r) (fun d c => L c d) RO LO (fun r c => out c r) before C' (tr_problem _ _ _ _ _ _ _ _ _ _ _ _ _ _ _ HP) V') as (ph' & E' & _ & H').
  exists ph, ph'. split; [exact E|]. split; [exact E'|]. intros tr tr' X X'.
  destruct (H tr X) as (a & Ea & S). destruct (H' tr' X') as (a' & Ea' & S'). exists a, a'. split; [exact Ea|]. split; [exact Ea'|]. split; [exact S|].
  apply (stored_unique before a' a result out); [|exact S]. destruct S' as [S1 S2]. split.
  - intros r c Hr Hc. specialize (S1 c r). cbn [tr_map mm_rows mm_cols] in S1. rewrite tr_entry_addr in S1. apply S1; assumption.
  - intros x Hx. apply S2. cbn [tr_map mm_rows mm_cols]. intros r c Hr Hc. rewrite tr_entry_addr. apply Hx; assumption.
Qed.

Lemma gemm_degenerate m K t hw mnt sc scs lhs rhs result lo ro p before :
  mm_cols (op_map lhs) = mm_rows (op_map rhs) ->
  mm_rows result = 0 \/ mm_cols result = 0 \/ mm_cols (op_map lhs) = 0 ->
  exists phases, DispatchGemmShape m K t hw mnt sc scs lhs rhs result lo ro p = Some phases /\
    (exists trace, execution phases trace) /\
    forall trace, execution phases trace -> perform trace before = Some before.
Proof.
  intros Hd Hz. exists []. split; [|split].
  - unfold DispatchGemmShape. cbv zeta. unfold guard. replace (mm_cols (op_map lhs) =? mm_rows (op_map rhs)) with true by lia. cbn [bind].
    replace ((mm_rows result =? 0) || (mm_cols result =? 0) || (mm_cols (op_map lhs) =? 0)) with true by lia. reflexivity.
  - exists []. constructor.
  - intros tr X. inversion X. reflexivity.
Qed.

(* the standard uint8 entry point *)
Lemma standard_at m off mult shift r c x : 0 <= shift <= 31 ->
  (m = Wrap \/ (fits 32 (x + off) /\ fits 32 ((x + off) * mult))) ->
  pipe_at m (MakeStandardOutputPipeline off mult shift) r c x =
  Some (clampZ 0 255 (rnd_away (wrapS 32 ((x + off) * mult)) (2 ^ shift))).
Proof.
  intros Hs Hm. unfold MakeStandardOutputPipeline. cbn [pipe_at stage_at]. unfold quantize_at.
  assert (E : bind (norm m 32 (x + off)) (fun a => bind (norm m 32 (a * mult)) (fun p => RoundingDivideByPOT m 32 p shift))
            = Some (rnd_away (wrapS 32 ((x + off) * mult)) (2 ^ shift))).
  { assert (Hf : fits 32 (wrapS 32 ((x + off) * mult))) by (apply fits_int; apply wrapS_range; lia).
    destruct Hm as [->|[H1 H2]].
    - cbn [norm bind]. rewrite wrapS_mul_l by lia. apply rdpot_eq; [right; reflexivity|exact Hf|lia].
    - rewrite norm_fits by (try lia; apply fits_int; exact H1). cbn [bind].
      rewrite norm_fits by (try lia; apply fits_int; exact H2). cbn [bind].
      rewrite wrapS_small by (try lia; apply fits_int; exact H2). apply rdpot_eq; [right; reflexivity|exact H2|lia]. }
  rewrite E. cbn [bind]. f_equal. unfold clampZ. destruct (_ <? 0) eqn:A; [lia|]. destruct (255 <? _) eqn:B; lia.
Qed.

Lemma standard_safe o m off mult shift rows cols lo ro P : fits 32 lo -> fits 32 ro -> fits 32 off -> fits 32 mult ->
  vector_safe o m (MakeStandardOutputPipeline off mult shift) rows cols (fun _ => lo) (fun _ => ro) P.
Proof.
  intros H1 H2 H3 H4. destruct o as [T|]; [|exact I]. split; [discriminate|]. split; [intros; exact H1|]. split; [intros; exact H2|].
  intros r c _ _. split; [split; assumption|]. intros y _. split; [exact I|]. intros z _. exact I.
Qed.
Lemma Gemm_standard m K t hw mnt sc scs lhs rhs result L R lo ro off mult shift before :
  let depth := mm_cols (op_map lhs) in
  let P r c := offset_product L R (fun _ => lo) (fun _ => ro) depth r c in
  gemm_config_ok m K t hw mnt result ->
  mm_rows (op_map lhs) = mm_rows result -> mm_cols (op_map rhs) = mm_cols result -> depth = mm_rows (op_map rhs) ->
  0 < mm_rows result -> 0 < mm_cols result -> 0 < depth ->
  in_min (kf_rhs (k_fmt K)) = in_min (kf_lhs (k_fmt K)) ->
  holds_lhs (kf_lhs (k_fmt K)) (op_mem lhs) (op_map lhs) L -> holds_rhs (kf_rhs (k_fmt K)) (op_mem rhs) (op_map rhs) R ->
  valid_view before result -> 0 <= shift <= 31 -> fits 32 lo -> fits 32 ro -> fits 32 off -> fits 32 mult ->
  (m = Wrap \/
   (int32_safe (in_min (kf_lhs (k_fmt K))) (kf_reg (k_fmt K)) depth (mm_rows result) (mm_cols result) (fun _ => lo) (fun _ => ro) /\
    forall r c, 0 <= r < mm_rows result -> 0 <= c < mm_cols result -> fits 32 (P r c + off) /\ fits 32 ((P r c + off) * mult))) ->
  exists phases, Gemm m K t hw mnt sc scs lhs rhs result lo ro off mult shift = Some phases /\
    (exists trace, execution phases trace) /\
    forall trace, execution phases trace ->
      exists after, perform trace before = Some after /\
        stored before after result (fun r c => clampZ 0 255 (rnd_away (wrapS 32 ((P r c + off) * mult)) (2 ^ shift))).
Proof.
  cbv zeta. intros C H1 H2 H3 Hr Hc Hd Hin HL HR V Hs F1 F2 F3 F4 Hm. unfold Gemm, GemmWithOutputPipeline.
  apply gemm_correct with (L := L) (R := R) (LO := fun _ => lo) (RO := fun _ => ro); [exact C| |exact V].
  constructor; try assumption.
  - tauto.
  - split; [exact I|]. split; [cbn; lia|]. reflexivity.
  - split; [exact I|]. split; [cbn; lia|]. reflexivity.
  - destruct Hm as [?|[? _]]; auto.
  - intros r c Hrr Hcc. set (P := offset_product L R (fun _ => lo) (fun _ => ro) (mm_cols (op_map lhs)) r c).
    assert (Hw : wrapS 32 ((wrapS 32 P + off) * mult) = wrapS 32 ((P + off) * mult)).
    { rewrite <- (wrapS_mul_l 32 (wrapS 32 P + off)), wrapS_add_l, wrapS_mul_l by lia. reflexivity. }
    rewrite <- Hw. apply standard_at; [exact Hs|].
    destruct Hm as [?|[Hsafe Hf]]; [left; assumption|right].
    assert (Hk : 0 < kf_reg (k_fmt K)) by (destruct C as ((_&_&_&?&_)&_); assumption).
    assert (E : wrapS 32 P = P).
    { apply (product_exact (in_min (kf_lhs (k_fmt K))) (kf_reg (k_fmt K)) _ (mm_rows result) (mm_cols result)); try assumption; try lia.
      - intros d Hdd. apply (proj1 HL r d); lia.
      - intros d Hdd. rewrite <- Hin. apply (proj1 HR d c); lia. }
    rewrite E. apply Hf; assumption.
  - apply standard_safe; assumption.
Qed.
