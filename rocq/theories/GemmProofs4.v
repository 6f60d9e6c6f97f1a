From Coq Require Import Permutation.
From Verif Require Import Base BaseLemmas CommonModel CommonProofs PackModel PackProofs PackProofs2 PackProofs3 GemmSpec PackProofs4
  FixedPointModel ComputeModel KernelSpec ComputeProofs OutputModel OutputSpec OutputProofs UnpackModel UnpackProofs GemmModel GemmContract
  GemmProofs GemmProofs2 GemmProofs3.

Lemma NoDup_app_both {A} (l l' : list A) : NoDup (l ++ l') -> NoDup l /\ NoDup l' /\ (forall x, In x l -> In x l' -> False).
Proof.
  induction l as [|a t IH]; cbn [app]; intros H.
  - split; [constructor|]. split; [exact H|]. intros x [].
  - inversion H as [|? ? Ha Ht]; subst. destruct (IH Ht) as (A1 & A2 & A3). split; [|split; [exact A2|]].
    + constructor; [|exact A1]. intros Hin. apply Ha. apply in_or_app. left. exact Hin.
    + intros x [<-|Hx] Hx'; [apply Ha; apply in_or_app; right; exact Hx'|exact (A3 x Hx Hx')].
Qed.

(* ------------------------------------------------------------------ *)
(* Executions are permutations of all stores *)
Lemma interleaving_perm {A} (ls : list (list A)) tr : interleaving ls tr -> Permutation tr (concat ls).
Proof.
  induction 1 as [ls H|ls1 a l ls2 tr H IH].
  - assert (E : concat ls = []).
    { induction ls as [|l t IH]; [reflexivity|]. cbn. rewrite (H l (or_introl eq_refl)). apply IH. intros; apply H; right; assumption. }
    rewrite E. constructor.
  - rewrite concat_app in *. cbn [concat] in *. rewrite <- app_comm_cons.
    apply Permutation_cons_app. exact IH.
Qed.
Lemma execution_perm phases tr : execution phases tr -> Permutation tr (flat phases).
Proof.
  induction 1 as [|ph phs t1 t2 H1 H2 IH]; [constructor|].
  unfold flat. cbn [map concat]. apply Permutation_app; [apply interleaving_perm; exact H1|exact IH].
Qed.
Lemma interleaving_nil_cons {A} (ls : list (list A)) tr : interleaving ls tr -> interleaving ([] :: ls) tr.
Proof.
  induction 1 as [ls H|ls1 a l ls2 tr H IH].
  - apply il_done. intros l [<-|Hin]; [reflexivity|apply H; exact Hin].
  - apply (il_step ([] :: ls1) a l ls2 tr). exact IH.
Qed.
Lemma interleaving_seq {A} (ls : list (list A)) : interleaving ls (concat ls).
Proof.
  induction ls as [|l t IH]; [apply il_done; intros ? []|]. cbn [concat].
  induction l as [|a l IHl]; [apply interleaving_nil_cons; exact IH|]. cbn [app]. exact (il_step [] a l t _ IHl).
Qed.
Lemma execution_seq phases : execution phases (flat phases).
Proof.
  induction phases as [|ph phs IH]; [constructor|]. unfold flat. cbn [map concat]. constructor; [apply interleaving_seq|exact IH].
Qed.

Lemma covers_stores_once out result log :
  covers (ent out result) (in_rect 0 (mm_rows result) 0 (mm_cols result)) log -> stores_once result out log.
Proof.
  intros (vis & E & N & HI). exists vis. split; [|split; [exact N|]].
  - rewrite E. apply map_ext. intros [r c]. cbn. unfold ent. rewrite mm_addr_entry. reflexivity.
  - intros r c. rewrite HI. unfold in_rect. tauto.
Qed.
Lemma stores_once_perm M out l l' : Permutation l' l -> stores_once M out l -> stores_once M out l'.
Proof.
  intros HP (vis & E & N & HI). rewrite E in HP.
  apply Permutation_map_inv in HP as (vis' & E' & HP'). exists vis'. split; [exact E'|]. split.
  - eapply Permutation_NoDup; [exact HP'|exact N].
  - intros r c. rewrite <- HI. split; intros Hin; [eapply Permutation_in; [symmetry; exact HP'|exact Hin]|eapply Permutation_in; [exact HP'|exact Hin]].
Qed.

Lemma entry_addr_inj M r c r' c' :
  match mm_order M with ColMajor => mm_rows M | RowMajor => mm_cols M end <= mm_stride M ->
  0 <= r < mm_rows M -> 0 <= c < mm_cols M -> 0 <= r' < mm_rows M -> 0 <= c' < mm_cols M ->
  entry_addr M r c = entry_addr M r' c' -> r = r' /\ c = c'.
Proof.
  unfold entry_addr. destruct (mm_order M); intros Hs Hr Hc Hr' Hc' E.
  - assert (D : forall s a b x y, 0 <= a < s -> 0 <= b < s -> a + x * s = b + y * s -> x = y) by (clear; intros; nia).
    assert (c = c') by (apply (D (mm_stride M) r r'); lia). subst c'. lia.
  - assert (D : forall s a b x y, 0 <= a < s -> 0 <= b < s -> a + x * s = b + y * s -> x = y) by (clear; intros; nia).
    assert (r = r') by (apply (D (mm_stride M) c c'); lia). subst r'. lia.
Qed.

Lemma stores_once_addrs M out log : 
  match mm_order M with ColMajor => mm_rows M | RowMajor => mm_cols M end <= mm_stride M ->
  stores_once M out log -> NoDup (map fst log).
Proof.
  intros Hs (vis & E & N & HI). rewrite E, map_map. cbn [fst].
  assert (HI' : forall q, In q vis -> 0 <= fst q < mm_rows M /\ 0 <= snd q < mm_cols M).
  { intros [r c] Hin. apply HI. exact Hin. }
  clear E HI. induction vis as [|q t IH]; [constructor|]. cbn [map]. inversion N as [|? ? Hq Ht]; subst.
  constructor.
  - intros Hin. apply in_map_iff in Hin as (q' & Eq & Hin'). apply Hq.
    destruct (HI' q (or_introl eq_refl)) as [A1 A2]. destruct (HI' q' (or_intror Hin')) as [B1 B2].
    destruct (entry_addr_inj M (fst q') (snd q') (fst q) (snd q) Hs B1 B2 A1 A2 Eq) as [E1 E2].
    replace q with q' by (destruct q, q'; cbn in *; congruence). exact Hin'.
  - apply IH; [exact Ht|]. intros; apply HI'; right; assumption.
Qed.

Lemma stores_once_stored M out log before : valid_view before M -> stores_once M out log ->
  exists after, perform log before = Some after /\ stored before after M out.
Proof.
  intros (Hal & Hs) HO. pose proof (stores_once_addrs M out log Hs HO) as Hnd. destruct HO as (vis & E & N & HI).
  destruct (perform_spec log before) as (after & Ea & H1 & H2); [|exact Hnd|].
  - intros a v Hin. rewrite E in Hin. apply in_map_iff in Hin as ([r c] & Eq & Hin). injection Eq as <- <-.
    apply HI in Hin. apply Hal; tauto.
  - exists after. split; [exact Ea|]. split.
    + intros r c Hr Hc. apply H1. rewrite E. apply in_map_iff. exists (r, c). split; [reflexivity|]. apply HI. tauto.
    + intros a Ha. apply H2. rewrite E, map_map. intros Hin. apply in_map_iff in Hin as ([r c] & <- & Hin). apply HI in Hin.
      apply (Ha r c); [tauto|tauto|reflexivity].
Qed.

(* ------------------------------------------------------------------ *)
(* Main GEMM facts *)
Lemma gemm_stores m K t hw mnt sc scs lhs rhs result lo ro p L R LO RO out :
  gemm_config_ok m K t hw mnt result ->
  gemm_problem m K (op_mem lhs) (op_map lhs) (op_mem rhs) (op_map rhs) result lo ro p L R LO RO out ->
  exists phases, DispatchGemmShape m K t hw mnt sc scs lhs rhs result lo ro p = Some phases /\
    forall trace, execution phases trace -> stores_once result out trace.
Proof.
  intros (Hk & HK & HKp & Ht & Hth) HP.
  destruct (Dispatch_spec m K lhs rhs result lo ro p L R LO RO out t hw mnt sc scs Hk HK HKp HP Ht Hth) as (phases & E & HC).
  exists phases. split; [exact E|]. intros tr Hx. eapply stores_once_perm; [exact (execution_perm _ _ Hx)|].
  apply covers_stores_once. exact HC.
Qed.

Lemma gemm_correct m K t hw mnt sc scs lhs rhs result lo ro p L R LO RO out before :
  gemm_config_ok m K t hw mnt result ->
  gemm_problem m K (op_mem lhs) (op_map lhs) (op_mem rhs) (op_map rhs) result lo ro p L R LO RO out ->
  valid_view before result ->
  exists phases, DispatchGemmShape m K t hw mnt sc scs lhs rhs result lo ro p = Some phases /\
    (exists trace, execution phases trace) /\
    forall trace, execution phases trace ->
      exists after, perform trace before = Some after /\ stored before after result out.
Proof.
  intros Hc HP Hv. destruct (gemm_stores m K t hw mnt sc scs lhs rhs result lo ro p L R LO RO out Hc HP) as (phases & E & HS).
  exists phases. split; [exact E|]. split; [exists (flat phases); apply execution_seq|].
  intros tr Hx. apply stores_once_stored; [exact Hv|]. apply HS. exact Hx.
Qed.

Lemma stored_unique before after after' M out : stored before after M out -> stored before after' M out -> forall a, after a = after' a.
Proof.
  intros [A1 A2] [B1 B2] a.
  destruct (in_dec Z.eq_dec a (map (fun q => entry_addr M (fst q) (snd q)) (list_prod (zrange (mm_rows M)) (zrange (mm_cols M))))) as [Hi|Hn].
  - apply in_map_iff in Hi as ([r c] & <- & Hin). apply in_prod_iff in Hin as [H1 H2].
    apply zrange_In in H1. apply zrange_In in H2. cbn. rewrite A1, B1 by assumption. reflexivity.
  - assert (Ha : forall r c, 0 <= r < mm_rows M -> 0 <= c < mm_cols M -> a <> entry_addr M r c).
    { intros r c Hr Hc ->. apply Hn. apply in_map_iff. exists (r, c). split; [reflexivity|]. apply in_prod_iff.
      split; apply zrange_In; assumption. }
    rewrite A2, B2 by exact Ha. reflexivity.
Qed.

(* distinct tasks store to distinct addresses *)
Lemma gemm_tasks_disjoint m K t hw mnt sc scs lhs rhs result lo ro p L R LO RO out before phases :
  gemm_config_ok m K t hw mnt result ->
  gemm_problem m K (op_mem lhs) (op_map lhs) (op_mem rhs) (op_map rhs) result lo ro p L R LO RO out ->
  valid_view before result ->
  DispatchGemmShape m K t hw mnt sc scs lhs rhs result lo ro p = Some phases ->
  forall phase i j li lj a vi vj, In phase phases -> nth_error phase i = Some li -> nth_error phase j = Some lj -> i <> j ->
    In (a, vi) li -> In (a, vj) lj -> False.
Proof.
  intros Hc HP [_ Hs] E phase i j li lj a vi vj Hph Hi Hj Hij Hai Haj.
  destruct (gemm_stores m K t hw mnt sc scs lhs rhs result lo ro p L R LO RO out Hc HP) as (phases' & E' & HS).
  rewrite E in E'. injection E' as <-. pose proof (stores_once_addrs _ _ _ Hs (HS _ (execution_seq phases))) as Hnd.
  assert (Hnd2 : NoDup (map fst (concat phase))).
  { clear - Hnd Hph. unfold flat in Hnd. induction phases as [|ph t IH]; [destruct Hph|].
    cbn [map concat] in Hnd. rewrite map_app in Hnd. apply NoDup_app_both in Hnd as (H1 & H2 & _).
    destruct Hph as [->|Hin]; [exact H1|apply IH; assumption]. }
  clear - Hnd2 Hi Hj Hij Hai Haj. revert i j Hi Hj Hij. induction phase as [|l t IH]; intros i j Hi Hj Hij; [destruct i; discriminate|].
  cbn [concat] in Hnd2. rewrite map_app in Hnd2.
  apply NoDup_app_both in Hnd2 as (_ & Hnd3 & Hd).
  assert (HinC : forall n l' v, nth_error t n = Some l' -> In (a, v) l' -> In a (map fst (concat t))).
  { intros n l' v Hn Hv. apply in_map_iff. exists (a, v). split; [reflexivity|]. apply in_concat. exists l'. split; [eapply nth_error_In; exact Hn|exact Hv]. }
  destruct i as [|i], j as [|j]; cbn in Hi, Hj; [lia|..].
  - injection Hi as ->. apply (Hd a); [apply in_map_iff; exists (a, vi); auto|eapply HinC; eassumption].
  - injection Hj as ->. apply (Hd a); [apply in_map_iff; exists (a, vj); auto|eapply HinC; eassumption].
  - apply (IH Hnd3 i j Hi Hj). lia.
Qed.

(* exactness *)
Lemma product_exact n kreg depth rows cols LO RO L R r c : 1 <= kreg -> 0 <= depth -> int32_safe n kreg depth rows cols LO RO ->
  0 <= r < rows -> 0 <= c < cols ->
  (forall d, 0 <= d < depth -> n <= L r d <= n + 255) -> (forall d, 0 <= d < depth -> n <= R d c <= n + 255) ->
  wrapS 32 (offset_product L R LO RO depth r c) = offset_product L R LO RO depth r c.
Proof.
  intros Hk Hd (Ml & Mr & H1 & H2 & H3 & H4 & H5) Hr Hc HL HR. apply wrapS_small; [lia|].
  specialize (H4 r Hr). specialize (H5 c Hc).
  assert (B : Z.abs (offset_product L R LO RO depth r c) <= Ml * Mr * depth).
  { unfold offset_product. apply sumZ_abs; [lia|apply Z.mul_nonneg_nonneg; lia|]. intros d Hdd. rewrite Z.abs_mul.
    specialize (HL d Hdd). specialize (HR d Hdd). apply Z.mul_le_mono_nonneg; lia. }
  assert (B2 : Ml * Mr * depth <= Ml * Mr * (depth + kreg - 1)).
  { apply Z.mul_le_mono_nonneg_l; [|lia]. apply Z.mul_nonneg_nonneg; lia. }
  unfold int_min, int_max. change (2 ^ (32 - 1)) with (2 ^ 31). lia.
Qed.
