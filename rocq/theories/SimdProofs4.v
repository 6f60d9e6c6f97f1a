(* SimdProofs4.v: the functions of fixedpoint.h on registers compute the scalar
   functions on every lane *)
From Verif Require Import Base BaseLemmas FixedPointModel FixedPointSpec FixedPointProofs FixedPointProofs2 FixedPointProofs3 FixedPointProofs5
  SimdModel SimdProofs SimdProofs2 SimdProofs3.

Record lane_ok (o : vops) (w i : Z) : Prop := mk_lane_ok {
  k_dup : forall x, get w i (v_dup o x) = wrapS w x;
  k_and : forall a b, get w i (v_and o a b) = BitAnd (get w i a) (get w i b);
  k_add : forall a b, get w i (v_add o a b) = wrapS w (get w i a + get w i b);
  k_sub : forall a b, get w i (v_sub o a b) = wrapS w (get w i a - get w i b);
  k_neg : forall a, get w i (v_neg o a) = wrapS w (- get w i a);
  k_sel : forall m t e, get w i m = 0 \/ get w i m = -1 -> get w i (v_select o m t e) = SelectUsingMask (get w i m) (get w i t) (get w i e);
  k_nz : forall a, get w i (v_nonzero o a) = MaskIfNonZero (get w i a);
  k_z : forall a, get w i (v_zero o a) = MaskIfZero (get w i a);
  k_gt : forall a b, get w i (v_gt o a b) = MaskIfGreaterThan (get w i a) (get w i b);
  k_lt : forall a b, get w i (v_lt o a b) = MaskIfLessThan (get w i a) (get w i b);
  k_half : forall a b, get w i (v_halfsum o a b) = (get w i a + get w i b + 1) / 2;
  k_sat : forall a b r, AddSaturatingIf16Bit Trap w (get w i a) (get w i b) = Some r -> get w i (v_addsat o a b) = r;
  k_mul : forall a b, ~ (get w i a = int_min w /\ get w i b = int_min w) -> get w i (v_mul o a b) = FMul w (get w i a) (get w i b);
  k_pot : forall e x, - (w - 1) <= e <= w - 1 -> e <= 30 ->
    exists r, v_pot o e x = Some r /\ SaturatingRoundingMultiplyByPOT Trap w e (get w i x) = Some (get w i r) }.

Lemma trap_some w z r : norm Trap w z = Some r -> r = z /\ int_min w <= z <= int_max w.
Proof. unfold norm. destruct (in_int w z) eqn:E; [|discriminate]. intros H. injection H as <-. split; [reflexivity|]. now apply in_int_true. Qed.
Lemma sat16 a b r i x y : get 16 i a = x -> get 16 i b = y -> AddSaturatingIf16Bit Trap 16 x y = Some r -> clamp_int 16 (x + y) = r.
Proof. intros _ _ H. unfold AddSaturatingIf16Bit in H. change (16 =? 16) with true in H. cbn iota in H. injection H as <-. now rewrite sat_add_eq by lia. Qed.
Lemma sat32 w x y r : w = 32 -> AddSaturatingIf16Bit Trap w x y = Some r -> wrapS w (x + y) = r.
Proof. intros -> H. unfold AddSaturatingIf16Bit in H. change (32 =? 16) with false in H. cbn iota in H. apply trap_some in H as (-> & H). apply wrapS_small; lia. Qed.

Theorem sse_lane_ok w i : w1632 w -> 0 <= i < lanes w -> lane_ok (sse w) w i.
Proof.
  intros W Hi. pose proof (w1 w W) as H1. constructor; cbn [sse v_dup v_and v_add v_sub v_neg v_select v_nonzero v_zero v_gt v_lt v_halfsum v_addsat v_mul v_pot].
  - exact (g_dup w i W Hi).
  - exact (g_sse_and w i W).
  - exact (g_add w i W Hi).
  - exact (g_sub w i W Hi).
  - exact (g_sse_neg w i W Hi).
  - intros m t e _. exact (g_sse_sel w i W m t e).
  - exact (g_sse_nz w i W Hi).
  - exact (g_sse_z w i W Hi).
  - exact (g_sse_gt w i W Hi).
  - exact (g_sse_lt w i W Hi).
  - intros a b. destruct W as [-> | ->]; [exact (g_sse_half16 i a b Hi)|exact (g_sse_half32 i a b Hi)].
  - intros a b r H. destruct (Z.eq_dec w 16) as [-> | N].
    + change (16 =? 16) with true. cbn iota. unfold mm_adds. rewrite (g_qadd 16 i W Hi). exact (sat16 a b r i _ _ eq_refl eq_refl H).
    + assert (E : w = 32) by (destruct W; congruence). replace (w =? 16) with false by lia. unfold sse_Add, mm_add.
      rewrite (g_add w i W Hi). exact (sat32 w _ _ r E H).
  - intros a b N. destruct W as [-> | ->]; [exact (sse_mul16 i a b Hi)|exact (sse_mul32 i a b Hi N)].
  - intros e x He H30. exact (sse_srm w i e x W Hi He H30).
Qed.
Theorem neon_lane_ok w i : w1632 w -> 0 <= i < lanes w -> lane_ok (neon w) w i.
Proof.
  intros W Hi. pose proof (w1 w W) as H1. constructor; cbn [neon v_dup v_and v_add v_sub v_neg v_select v_nonzero v_zero v_gt v_lt v_halfsum v_addsat v_mul v_pot].
  - exact (g_ndup w i W Hi).
  - exact (g_neon_and w i W).
  - exact (g_add w i W Hi).
  - exact (g_sub w i W Hi).
  - exact (g_neon_neg w i W Hi).
  - intros m t e _. exact (g_neon_sel w i W m t e).
  - exact (g_neon_nz w i W Hi).
  - exact (g_neon_z w i W Hi).
  - exact (g_neon_gt w i W Hi).
  - exact (g_neon_lt w i W Hi).
  - exact (g_neon_half w i W Hi).
  - intros a b r H. destruct (Z.eq_dec w 16) as [-> | N].
    + change (16 =? 16) with true. cbn iota. unfold vqadd. rewrite (g_qadd 16 i W Hi). exact (sat16 a b r i _ _ eq_refl eq_refl H).
    + assert (E : w = 32) by (destruct W; congruence). replace (w =? 16) with false by lia. unfold neon_Add, vadd.
      rewrite (g_add w i W Hi). exact (sat32 w _ _ r E H).
  - intros a b _. exact (neon_mul w i a b W Hi).
  - intros e x He H30. eexists. split; [reflexivity|]. exact (neon_srm w i e x W Hi He H30).
Qed.

(* ------------------------------------------------------------------ *)
Section Functions.
Variables (o : vops) (w i : Z).
Hypothesis W : w1632 w.
Hypothesis K : lane_ok o w i.
Local Notation g := (get w i).
Lemma gw : 1 <= w. Proof. destruct W; lia. Qed.

Definition simulates (x : option reg) (y : option Z) : Prop := forall r, y = Some r -> exists v, x = Some v /\ g v = r.
Lemma sim_bind x y (f : reg -> option reg) (h : Z -> option Z) : simulates x y ->
  (forall v z, y = Some z -> g v = z -> simulates (f v) (h z)) -> simulates (bind x f) (bind y h).
Proof.
  intros A B r H. destruct y as [z |]; [|discriminate]. destruct (A z eq_refl) as (v & -> & G). cbn [bind] in *. exact (B v z eq_refl G r H).
Qed.
Lemma sim_ret v z : g v = z -> simulates (Some v) (Some z).
Proof. intros E r H. injection H as <-. exists v. auto. Qed.
Lemma sim_const {A} (c : option A) (f : A -> option reg) (h : A -> option Z) :
  (forall k, c = Some k -> simulates (f k) (h k)) -> simulates (bind c f) (bind c h).
Proof. intros H r E. destruct c as [k |]; [|discriminate]. exact (H k eq_refl r E). Qed.
(* a pure register operation against a checked scalar one *)
Lemma sim_let v y (f : reg -> option reg) (h : Z -> option Z) : (forall z, y = Some z -> g v = z) ->
  (forall z, y = Some z -> g v = z -> simulates (f v) (h z)) -> simulates (f v) (bind y h).
Proof. intros A B r H. destruct y as [z |]; [|discriminate]. exact (B z eq_refl (A z eq_refl) r H). Qed.
Lemma add_lane a b z : Add Trap w (g a) (g b) = Some z -> g (v_add o a b) = z.
Proof. intros H. apply trap_some in H as (-> & H). rewrite (k_add _ _ _ K). apply wrapS_small; [exact gw|exact H]. Qed.
Lemma sub_lane a b z : Sub Trap w (g a) (g b) = Some z -> g (v_sub o a b) = z.
Proof. intros H. apply trap_some in H as (-> & H). rewrite (k_sub _ _ _ K). apply wrapS_small; [exact gw|exact H]. Qed.
Lemma neg_lane a z : Neg Trap w (g a) = Some z -> g (v_neg o a) = z.
Proof. intros H. apply trap_some in H as (-> & H). rewrite (k_neg _ _ _ K). apply wrapS_small; [exact gw|exact H]. Qed.
Lemma dup_lane x : int_min w <= x <= int_max w -> g (v_dup o x) = x.
Proof. intros H. rewrite (k_dup _ _ _ K). apply wrapS_small; [exact gw|exact H]. Qed.
Lemma pot_sim e x : - (w - 1) <= e <= w - 1 -> e <= 30 -> simulates (v_pot o e x) (SaturatingRoundingMultiplyByPOT Trap w e (g x)).
Proof.
  intros He H30 r H. destruct (k_pot _ _ _ K e x He H30) as (v & Ev & Es). exists v. split; [exact Ev|]. congruence.
Qed.
Lemma wmin : int_min w <= -32768. Proof. unfold int_min. destruct W; subst w; cbn; lia. Qed.
Lemma wmax : 32767 <= int_max w. Proof. unfold int_max. destruct W; subst w; cbn; lia. Qed.
Lemma rci_fits v c : RescaleConstantInitializer Trap w v = Some c -> int_min w <= c <= int_max w.
Proof. unfold RescaleConstantInitializer. intros H. destruct (RoundingDivideByPOT Trap 32 v (32 - w)); [|discriminate]. injection H as <-. apply wrapS_range, gw. Qed.
Lemma cpot_fits ib e c : ConstantPOT w ib e = Some c -> int_min w <= c <= int_max w.
Proof. unfold ConstantPOT. intros H. destruct (_ && _); [|discriminate]. injection H as <-. apply wrapS_range, gw. Qed.
Lemma one_fits ib : int_min w <= One w ib <= int_max w.
Proof. unfold One. pose proof wmin. pose proof wmax. destruct (ib =? 0); [lia|apply wrapS_range, gw]. Qed.
(* a product is never the minimum unless a factor is *)
Lemma fmul_not_min a b : fits w a -> fits w b -> a <> int_min w -> FMul w a b <> int_min w.
Proof.
  intros Fa Fb N E. unfold FMul in E. rewrite (srdhm_eq w a b W Fa Fb) in E.
  replace (a =? int_min w) with false in E by lia. cbn [andb] in E. unfold fits, int_min in *.
  assert (HQ : 2 ^ (w - 1) = 2 * 2 ^ (w - 2)) by (rewrite <- Z.pow_succ_r by (pose proof gw; destruct W; lia); f_equal; lia).
  assert (0 < 2 ^ (w - 2)) by (apply Z.pow_pos_nonneg; destruct W; lia).
  set (q := 2 ^ (w - 2)) in *. rewrite HQ in *. set (d := 2 * q) in *.
  assert (B : a * b + q < - d * d + d).
  { pose proof (Z.mul_div_le (a * b + q) d ltac:(lia)). pose proof (Z.mod_pos_bound (a * b + q) d ltac:(lia)).
    pose proof (Z.div_mod (a * b + q) d ltac:(lia)). rewrite E in *. lia. }
  assert (- (d * (d - 1)) <= a * b); [|lia]. nia.
Qed.
Lemma mul_lane a b : g a <> int_min w \/ g b <> int_min w -> g (v_mul o a b) = FMul w (g a) (g b).
Proof. intros H. apply (k_mul _ _ _ K). tauto. Qed.
Lemma g_fits v : fits w (g v). Proof. apply get_fits, gw. Qed.

Lemma exp_interval_sim a : simulates (v_exp_on_interval o w a) (exp_on_interval Trap w (g a)).
Proof.
  unfold v_exp_on_interval, exp_on_interval.
  apply sim_const. intros ct Ect. apply sim_const. intros c3 Ec3. apply sim_const. intros e8 Ee8.
  assert (Hct : g (v_dup o ct) = ct) by (apply dup_lane; eapply rci_fits; eauto).
  assert (Hc3 : g (v_dup o c3) = c3) by (apply dup_lane; eapply rci_fits; eauto).
  assert (He8 : g (v_dup o e8) = e8) by (apply dup_lane; eapply cpot_fits; eauto).
  assert (Nct : ct <> int_min w).
  { clear - Ect W. destruct W as [-> | ->]; vm_compute in Ect; injection Ect as <-; unfold int_min; cbn; lia. }
  assert (Nc3 : c3 <> int_min w).
  { clear - Ec3 W. destruct W as [-> | ->]; vm_compute in Ec3; injection Ec3 as <-; unfold int_min; cbn; lia. }
  assert (P8 : 0 < e8).
  { clear - Ee8 W. destruct W as [-> | ->]; vm_compute in Ee8; injection Ee8 as <-; lia. }
  apply (sim_let (v_add o a (v_dup o e8)) (Add Trap w (g a) e8)
    (fun x => let x2 := v_mul o x x in let x3 := v_mul o x2 x in let x4 := v_mul o x2 x2 in
       let* x4_over_4 := v_pot o (-2) x4 in
       let s := v_add o x4_over_4 x3 in
       let t := v_add o (v_mul o s (v_dup o c3)) x2 in
       let* u := v_pot o (-1) t in
       let v := v_add o x u in
       Some (v_addsat o (v_dup o ct) (v_mul o (v_dup o ct) v)))).
  { intros z Hz. apply add_lane. now rewrite He8. }
  intros x Ex Gx. cbv zeta. set (X := v_add o a (v_dup o e8)) in *. clearbody X.
  assert (Nx : g X <> int_min w).
  { rewrite Gx. apply trap_some in Ex as (-> & _). pose proof (get_range w i a gw). lia. }
  assert (G2 : g (v_mul o X X) = FMul w x x) by (rewrite mul_lane by tauto; now rewrite Gx).
  set (X2 := v_mul o X X) in *. clearbody X2.
  assert (N2 : g X2 <> int_min w) by (rewrite G2, <- Gx; apply fmul_not_min; auto using g_fits).
  assert (G3 : g (v_mul o X2 X) = FMul w (FMul w x x) x) by (rewrite mul_lane by tauto; now rewrite G2, Gx).
  assert (G4 : g (v_mul o X2 X2) = FMul w (FMul w x x) (FMul w x x)) by (rewrite mul_lane by tauto; now rewrite G2).
  set (X3 := v_mul o X2 X) in *. clearbody X3. set (X4 := v_mul o X2 X2) in *. clearbody X4.
  apply sim_bind.
  { rewrite <- G4. apply pot_sim; [destruct W; lia|lia]. }
  intros V4 z4 _ Gz4.
  apply (sim_let (v_add o V4 X3) (Add Trap w z4 (FMul w (FMul w x x) x))
    (fun s => let* u := v_pot o (-1) (v_add o (v_mul o s (v_dup o c3)) X2) in
       Some (v_addsat o (v_dup o ct) (v_mul o (v_dup o ct) (v_add o X u))))).
  { intros z Hz. apply add_lane. now rewrite Gz4, G3. }
  intros s _ Gs. set (S := v_add o V4 X3) in *. clearbody S.
  assert (Gc : g (v_mul o S (v_dup o c3)) = FMul w s c3) by (rewrite mul_lane by (rewrite Hc3; tauto); now rewrite Gs, Hc3).
  apply (sim_let (v_add o (v_mul o S (v_dup o c3)) X2) (Add Trap w (FMul w s c3) (FMul w x x))
    (fun t => let* u := v_pot o (-1) t in
       Some (v_addsat o (v_dup o ct) (v_mul o (v_dup o ct) (v_add o X u))))).
  { intros z Hz. apply add_lane. now rewrite Gc, G2. }
  intros t _ Gt. set (T := v_add o (v_mul o S (v_dup o c3)) X2) in *. clearbody T.
  apply sim_bind.
  { rewrite <- Gt. apply pot_sim; [destruct W; lia|lia]. }
  intros U u _ Gu.
  apply (sim_let (v_add o X U) (Add Trap w x u) (fun v => Some (v_addsat o (v_dup o ct) (v_mul o (v_dup o ct) v)))).
  { intros z Hz. apply add_lane. now rewrite Gx, Gu. }
  intros v _ Gv. set (V := v_add o X U) in *. clearbody V.
  intros r Hr. eexists. split; [reflexivity|]. apply (k_sat _ _ _ K).
  rewrite mul_lane by (rewrite Hct; tauto). now rewrite Hct, Gv.
Qed.

Lemma sel_lane m t e : g m = 0 \/ g m = -1 -> g (v_select o m t e) = SelectUsingMask (g m) (g t) (g e). Proof. apply (k_sel _ _ _ K). Qed.
Lemma nz_mask x : MaskIfNonZero x = 0 \/ MaskIfNonZero x = -1. Proof. rewrite mask_nz_ones. destruct (negb (x =? 0)); auto. Qed.
Ltac a_mask := rewrite ?(k_nz _ _ _ K), ?(k_z _ _ _ K), ?(k_gt _ _ _ K), ?(k_lt _ _ _ K); apply nz_mask.
Lemma barrel_sim ib R e k V : 0 <= k <= 2147418111 -> 0 <= e + 2 ->
  simulates (v_exp_barrel_shifter o w ib R e k V) (exp_barrel_shifter Trap w ib (g R) e k (g V)).
Proof.
  intros Hk He. unfold v_exp_barrel_shifter, exp_barrel_shifter. destruct (ib >? e); [|now apply sim_ret].
  apply sim_const. intros km Ekm. apply sim_const. intros bit Ebit.
  assert (Hkm : g (v_dup o km) = km) by (apply dup_lane; eapply rci_fits; eauto).
  assert (Pk : km <> int_min w).
  { rewrite rci_eq in Ekm by (assumption || (unfold fits; cbn; lia)). apply Some_inj in Ekm. rewrite <- Ekm.
    assert (0 <= rnd_away k (2 ^ (32 - w))).
    { apply (rnd_away_range k (2 ^ (32 - w)) 0 2147483647); try lia. assert (0 < 2 ^ (32 - w)) by (apply Z.pow_pos_nonneg; destruct W; lia). lia. }
    pose proof wmin. pose proof wmax.
    assert (rnd_away k (2 ^ (32 - w)) <= int_max w).
    { clear - W Hk. destruct W as [-> | ->].
      - change (2 ^ (32 - 16)) with 65536. change (int_max 16) with 32767. rewrite rnd_away_nonneg by lia. unfold rnd_up. lia.
      - change (2 ^ (32 - 32)) with 1. change (int_max 32) with 2147483647. rewrite rnd_away_1. lia. }
    rewrite wrapS_small by (try exact gw; lia). lia. }
  apply sim_ret. rewrite sel_lane by a_mask; rewrite (k_nz _ _ _ K), (k_and _ _ _ K), (k_dup _ _ _ K).
  rewrite mul_lane by (rewrite Hkm; tauto). now rewrite Hkm.
Qed.
Lemma exp_sim ib a : 0 <= ib <= w - 3 -> simulates (v_exp_on_negative_values o w ib a) (exp_on_negative_values Trap w ib (g a)).
Proof.
  intros Hib. unfold v_exp_on_negative_values, exp_on_negative_values.
  apply sim_const. intros q Eq.
  assert (Hq : g (v_dup o q) = q) by (apply dup_lane; eapply cpot_fits; eauto).
  assert (H1 : g (v_dup o 1) = 1) by (apply dup_lane; pose proof wmin; pose proof wmax; lia).
  assert (H0 : g (v_dup o 0) = 0) by (apply dup_lane; pose proof wmin; pose proof wmax; lia).
  match goal with |- simulates ?L (bind ?y ?h) =>
    match eval pattern (v_sub o (v_dup o q) (v_dup o 1)) in L with ?F _ => apply (sim_let _ y F) end end.
  { intros z Hz. apply sub_lane. now rewrite Hq, H1. }
  intros mask _ Gm. cbv beta zeta. set (M := v_sub o (v_dup o q) (v_dup o 1)) in *. clearbody M.
  match goal with |- simulates ?L (bind ?y ?h) =>
    match eval pattern (v_sub o (v_and o a M) (v_dup o q)) in L with ?F _ => apply (sim_let _ y F) end end.
  { intros z Hz. apply sub_lane. now rewrite (k_and _ _ _ K), Gm, Hq. }
  intros am _ Gam. cbv beta. set (AM := v_sub o (v_and o a M) (v_dup o q)) in *. clearbody AM.
  apply sim_bind.
  { unfold vRescale, Rescale. rewrite <- Gam. apply pot_sim; destruct W; lia. }
  intros R0 r0 _ Gr0.
  apply sim_bind; [rewrite <- Gr0; apply exp_interval_sim|]. intros V0 v0 _ G0.
  match goal with |- simulates ?L (bind ?y ?h) =>
    match eval pattern (v_sub o AM a) in L with ?F _ => apply (sim_let _ y F) end end.
  { intros z Hz. apply sub_lane. now rewrite Gam. }
  intros rem _ Grem. cbv beta. set (R := v_sub o AM a) in *. clearbody R. rewrite <- Grem.
  apply sim_bind; [rewrite <- G0; apply barrel_sim; lia|]. intros V1 v1 _ G1.
  apply sim_bind; [rewrite <- G1; apply barrel_sim; lia|]. intros V2 v2 _ G2.
  apply sim_bind; [rewrite <- G2; apply barrel_sim; lia|]. intros V3 v3 _ G3.
  apply sim_bind; [rewrite <- G3; apply barrel_sim; lia|]. intros V4 v4 _ G4.
  apply sim_bind; [rewrite <- G4; apply barrel_sim; lia|]. intros V5 v5 _ G5.
  apply sim_bind; [rewrite <- G5; apply barrel_sim; lia|]. intros V6 v6 _ G6.
  apply sim_bind; [rewrite <- G6; apply barrel_sim; lia|]. intros V7 v7 _ G7.
  apply sim_bind.
  { destruct (ib >? 5); [|now apply sim_ret].
    apply sim_const. intros p Ep. apply sim_const. intros c Ec. apply sim_ret.
    assert (Hc : g (v_dup o c) = c) by (apply dup_lane; eapply rci_fits; eauto).
    rewrite sel_lane by a_mask; now rewrite (k_lt _ _ _ K), Hc, H0, G7. }
  intros V8 v8 _ G8. apply sim_ret.
  rewrite sel_lane by a_mask; rewrite (k_z _ _ _ K), G8. rewrite dup_lane by apply one_fits. reflexivity.
Qed.

Lemma step_sim h X : 0 <= g h -> simulates (v_newton_step o w h X) (newton_step Trap w (g h) (g X)).
Proof.
  intros Hh. unfold v_newton_step, newton_step.
  assert (Nh : g h <> int_min w) by (pose proof wmin; lia).
  assert (G1 : g (v_mul o h X) = FMul w (g h) (g X)) by (apply mul_lane; tauto).
  assert (HO : g (v_dup o (One w 2)) = One w 2) by (apply dup_lane, one_fits).
  cbv zeta.
  match goal with |- simulates ?L (bind ?y ?hh) =>
    match eval pattern (v_sub o (v_dup o (One w 2)) (v_mul o h X)) in L with ?F _ => apply (sim_let _ y F) end end.
  { intros z Hz. apply sub_lane. now rewrite HO, G1. }
  intros om Eom Gom. cbv beta. set (OM := v_sub o (v_dup o (One w 2)) (v_mul o h X)) in *. clearbody OM.
  assert (Nom : g OM <> int_min w).
  { rewrite Gom. apply trap_some in Eom as (-> & _). unfold FMul.
    pose proof (srdhm_fits w (g h) (g X) W (g_fits h) (g_fits X)) as F. unfold fits in F.
    assert (0 < One w 2) by (destruct W as [-> | ->]; reflexivity). unfold int_min. lia. }
  apply sim_bind.
  { unfold vRescale, Rescale. rewrite <- Gom, <- mul_lane by tauto. apply pot_sim; destruct W; lia. }
  intros D d _ Gd. intros r Hr. eexists. split; [reflexivity|]. apply add_lane. now rewrite Gd.
Qed.
Lemma newton_sim a : 0 <= g a -> simulates (v_newton_reciprocal o w a) (newton_reciprocal Trap w (g a)).
Proof.
  intros Ha. unfold v_newton_reciprocal, newton_reciprocal.
  assert (HO : g (v_dup o (One w 0)) = int_max w) by (rewrite dup_lane by apply one_fits; reflexivity).
  assert (HH : g (v_halfsum o a (v_dup o (One w 0))) = RoundingHalfSum w (g a) (One w 0)).
  { rewrite (k_half _ _ _ K), HO. change (One w 0) with (int_max w). rewrite rhs_eq.
    - pose proof wmax. rewrite rnd_away_nonneg by lia. unfold rnd_up. lia.
    - destruct W; lia.
    - apply g_fits.
    - apply fits_int. pose proof wmin. pose proof wmax. lia. }
  set (H := v_halfsum o a (v_dup o (One w 0))) in *.
  assert (PH : 0 <= g H).
  { unfold H. rewrite (k_half _ _ _ K), HO. pose proof wmax. lia. }
  clearbody H. cbv zeta. rewrite <- HH.
  apply sim_const. intros c1 E1. apply sim_const. intros c2 E2.
  assert (Hc1 : g (v_dup o c1) = c1) by (apply dup_lane; eapply rci_fits; eauto).
  assert (Hc2 : g (v_dup o c2) = c2) by (apply dup_lane; eapply rci_fits; eauto).
  assert (NH : g H <> int_min w) by (pose proof wmin; lia).
  match goal with |- simulates ?L (bind ?y ?hh) =>
    match eval pattern (v_add o (v_dup o c1) (v_mul o H (v_dup o c2))) in L with ?F _ => apply (sim_let _ y F) end end.
  { intros z Hz. apply add_lane. rewrite mul_lane by tauto. now rewrite Hc1, Hc2. }
  intros x _ Gx. cbv beta. set (X := v_add o (v_dup o c1) (v_mul o H (v_dup o c2))) in *. clearbody X.
  apply sim_bind; [rewrite <- Gx; now apply step_sim|]. intros X1 x1 _ Gx1.
  apply sim_bind; [rewrite <- Gx1; now apply step_sim|]. intros X2 x2 _ Gx2.
  rewrite <- Gx2. now apply step_sim.
Qed.
Lemma one_minus_over_sim a : 0 <= g a -> simulates (v_one_minus_x_over_one_plus_x o w a) (one_minus_x_over_one_plus_x Trap w (g a)).
Proof.
  intros Ha. unfold v_one_minus_x_over_one_plus_x, one_minus_x_over_one_plus_x.
  apply sim_bind; [now apply newton_sim|]. intros X x _ Gx.
  match goal with |- simulates ?L (bind ?y ?hh) =>
    match eval pattern (v_sub o X (v_dup o (One w 2))) in L with ?F _ => apply (sim_let _ y F) end end.
  { intros z Hz. apply sub_lane. now rewrite Gx, dup_lane by apply one_fits. }
  intros d _ Gd. cbv beta. unfold vRescale, Rescale. rewrite <- Gd. apply pot_sim; destruct W; lia.
Qed.
Lemma one_over_sim a : 0 <= g a -> simulates (v_one_over_one_plus_x o w a) (one_over_one_plus_x Trap w (g a)).
Proof.
  intros Ha. unfold v_one_over_one_plus_x, one_over_one_plus_x.
  apply sim_bind; [now apply newton_sim|]. intros X x _ Gx.
  unfold vRescale, Rescale, ExactMulByPot. rewrite <- Gx. apply pot_sim; destruct W; lia.
Qed.
Lemma select_bool (b : bool) t e : SelectUsingMask (if b then -1 else 0) t e = if b then t else e.
Proof. apply sel_mask. Qed.
Lemma tanh_sim ib a r : 0 <= ib <= w - 4 -> ftanh Trap w ib (g a) = Some r -> exists v, v_tanh o w ib a = Some v /\ g v = r.
Proof.
  intros Hib. revert r. change (simulates (v_tanh o w ib a) (ftanh Trap w ib (g a))). unfold v_tanh, ftanh. cbv zeta.
  assert (H0 : g (v_dup o 0) = 0) by (apply dup_lane; pose proof wmin; pose proof wmax; lia).
  match goal with |- simulates ?L (bind ?y ?hh) =>
    match eval pattern (v_neg o a) in L with ?F _ => apply (sim_let _ y F) end end.
  { intros z Hz. now apply neg_lane. }
  intros na Ena Gna. cbv beta. set (NA := v_neg o a) in *. clearbody NA.
  assert (GN : g (v_select o (v_lt o a (v_dup o 0)) a NA) = SelectUsingMask (MaskIfLessThan (g a) 0) (g a) na).
  { rewrite sel_lane by a_mask; now rewrite (k_lt _ _ _ K), H0, Gna. }
  unfold neg_tanh_on_negative_values, ExactMulByPot. rewrite <- GN.
  set (N := v_select o (v_lt o a (v_dup o 0)) a NA) in *.
  assert (N0 : g N <= 0).
  { rewrite GN. rewrite MaskIfLessThan_eq, sel_mask. apply trap_some in Ena as (-> & _). destruct (g a <? 0) eqn:E; lia. }
  clearbody N. intros r Hr.
  destruct (exp_negative_in_range Trap w (ib + 1) (g N) W ltac:(lia) (g_fits N) N0) as (e & Ee & Be & _).
  destruct (exp_sim (ib + 1) N ltac:(lia) e Ee) as (E & EE & GE). rewrite EE. rewrite Ee in Hr. cbn [bind] in *.
  rewrite <- GE in Hr. revert r Hr.
  match goal with |- forall r, ?y = Some r -> exists v, ?x = Some v /\ _ => change (simulates x y) end.
  apply sim_bind; [apply one_minus_over_sim; lia|]. intros T t _ Gt.
  match goal with |- simulates ?L (bind ?y ?hh) =>
    match eval pattern (v_neg o T) in L with ?F _ => apply (sim_let _ y F) end end.
  { intros z Hz. apply neg_lane. now rewrite Gt. }
  intros nt _ Gnt. cbv beta. apply sim_ret.
  rewrite !sel_lane by a_mask; now rewrite (k_lt _ _ _ K), (k_z _ _ _ K), H0, Gnt, Gt.
Qed.
Lemma logistic_sim ib a r : 0 <= ib <= w - 3 -> logistic Trap w ib (g a) = Some r -> exists v, v_logistic o w ib a = Some v /\ g v = r.
Proof.
  intros Hib. revert r. change (simulates (v_logistic o w ib a) (logistic Trap w ib (g a))). unfold v_logistic, logistic. cbv zeta.
  assert (H0 : g (v_dup o 0) = 0) by (apply dup_lane; pose proof wmin; pose proof wmax; lia).
  match goal with |- simulates ?L (bind ?y ?hh) =>
    match eval pattern (v_neg o a) in L with ?F _ => apply (sim_let _ y F) end end.
  { intros z Hz. now apply neg_lane. }
  intros na Ena Gna. cbv beta. set (NA := v_neg o a) in *. clearbody NA.
  assert (GN : g (v_select o (v_gt o a (v_dup o 0)) a NA) = SelectUsingMask (MaskIfGreaterThan (g a) 0) (g a) na).
  { rewrite sel_lane by a_mask; now rewrite (k_gt _ _ _ K), H0, Gna. }
  unfold logistic_on_positive_values. rewrite <- GN.
  set (N := v_select o (v_gt o a (v_dup o 0)) a NA) in *.
  assert (N0 : 0 <= g N).
  { rewrite GN. rewrite MaskIfGreaterThan_eq, sel_mask. apply trap_some in Ena as (-> & _). destruct (g a >? 0) eqn:E; lia. }
  clearbody N.
  assert (EP : Neg Trap w (g N) = Some (- g N)).
  { unfold Neg. apply norm_fits; [exact gw|]. pose proof (get_range w i N gw). unfold int_min, int_max in *. lia. }
  rewrite EP. cbn [bind].
  assert (GP : g (v_neg o N) = - g N) by (apply neg_lane; exact EP).
  rewrite <- GP. set (P := v_neg o N) in *. clearbody P. intros r Hr.
  destruct (exp_negative_in_range Trap w ib (g P) W ltac:(lia) (g_fits P) ltac:(lia)) as (e & Ee & Be & _).
  destruct (exp_sim ib P ltac:(lia) e Ee) as (E & EE & GE). rewrite EE. rewrite Ee in Hr. cbn [bind] in *.
  rewrite <- GE in Hr. revert r Hr.
  match goal with |- forall r, ?y = Some r -> exists v, ?x = Some v /\ _ => change (simulates x y) end.
  apply sim_bind; [apply one_over_sim; lia|]. intros T t _ Gt.
  match goal with |- simulates ?L (bind ?y ?hh) =>
    match eval pattern (v_sub o (v_dup o (One w 0)) T) in L with ?F _ => apply (sim_let _ y F) end end.
  { intros z Hz. apply sub_lane. now rewrite Gt, dup_lane by apply one_fits. }
  intros nt _ Gnt. cbv beta. apply sim_const. intros oh Eoh. apply sim_ret.
  assert (Hoh : g (v_dup o oh) = oh) by (apply dup_lane; eapply rci_fits; eauto).
  rewrite !sel_lane by a_mask; now rewrite (k_gt _ _ _ K), (k_z _ _ _ K), H0, Gnt, Gt, Hoh.
Qed.
End Functions.
