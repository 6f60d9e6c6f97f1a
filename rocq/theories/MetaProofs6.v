(* MetaProofs6.v: the fast path of EightBitIntGemm. *)
From Coq Require Import FinFun Permutation SpecFloat.
From Verif Require Import Base BaseLemmas CommonModel FixedPointSpec KernelSpec OutputModel OutputProofs GemmModel GemmContract GemmProofs3 GemmProofs4 EightBitModel EightBitSpec
  MetaModel MetaSpec MetaProofs MetaProofs2 MetaProofs3 MetaProofs4 MetaProofs5.

Lemma CanHandle_inv x : CanHandleMetaFastpath x = true -> x_bits x = A8B8 /\ 8 <= x_k x <= 2048 /\
  (x_ta x = true /\ x_lda x = x_k x \/ x_m x = 1) /\ (x_tb x = false /\ x_ldb x = x_k x \/ x_n x = 1) /\
  (IsRowMajorOrVector (x_tc x) (x_ldc x) (x_m x) (x_n x) = true \/ x_tc x = false /\ x_ldc x = x_m x \/ x_n x = 1).
Proof.
  unfold CanHandleMetaFastpath, IsColumnMajorOrVector. intros H.
  destruct (x_bits x); cbn [negb orb] in H; try discriminate. split; [reflexivity|].
  destruct ((x_k x <? 8) || (x_k x >? 2048)) eqn:Ek; [discriminate|]. split; [lia|].
  destruct (IsRowMajorOrVector (x_ta x) (x_lda x) (x_m x) (x_k x)) eqn:Ea; cbn [negb] in H; [|discriminate].
  split. { unfold IsRowMajorOrVector in Ea. destruct (x_ta x); cbn [andb] in Ea; destruct (x_lda x =? x_k x) eqn:E1; destruct (x_m x =? 1) eqn:E2; try discriminate; try (right; lia); left; split; [reflexivity|lia]. }
  destruct (if negb (x_tb x) && (x_ldb x =? x_k x) then true else if x_n x =? 1 then true else false) eqn:Eb; cbn [negb] in H; [|discriminate].
  split. { destruct (x_tb x); cbn [andb negb] in Eb; destruct (x_ldb x =? x_k x) eqn:E1; destruct (x_n x =? 1) eqn:E2; try discriminate; try (right; lia); left; split; [reflexivity|lia]. }
  destruct (IsRowMajorOrVector (x_tc x) (x_ldc x) (x_m x) (x_n x)) eqn:Ec; [left; reflexivity|]. right.
  destruct (x_tc x); cbn [andb negb] in H; destruct (x_ldc x =? x_m x) eqn:E1; destruct (x_n x =? 1) eqn:E2; try discriminate; try (right; lia); left; split; [reflexivity|lia].
Qed.

Definition row_layout (x : args) : Prop := forall r c, 0 <= r < x_m x -> 0 <= c < x_n x -> c_pos x r c = snd (x_c x) + r * x_n x + c.
Definition col_layout (x : args) : Prop := forall r c, 0 <= r < x_m x -> 0 <= c < x_n x -> c_pos x r c = snd (x_c x) + c * x_m x + r.
Ltac liaif := cbv beta iota; repeat match goal with |- context [if ?b then _ else _] => is_var b; destruct b end; lia.
Lemma CanHandle_layout x : CanHandleMetaFastpath x = true -> vectors_contiguous x ->
  (forall r d, 0 <= r < x_m x -> 0 <= d < x_k x -> a_pos x r d = snd (x_a x) + r * x_k x + d) /\
  (forall d c, 0 <= d < x_k x -> 0 <= c < x_n x -> b_pos x d c = snd (x_b x) + c * x_k x + d) /\
  (if IsRowMajorOrVector (x_tc x) (x_ldc x) (x_m x) (x_n x) then row_layout x else col_layout x).
Proof.
  intros H (V1 & V2 & V3 & V4). destruct (CanHandle_inv x H) as (_ & Hk & Ha & Hb & Hc). split; [|split].
  - intros r d Hr Hd. unfold a_pos, position. destruct Ha as [[-> ->]|E]; [liaif|]. assert (r = 0) by lia. subst r. destruct (V1 E) as [-> | ->]; [liaif|destruct (x_ta x); liaif].
  - intros d c Hd Hcc. unfold b_pos, position. destruct Hb as [[-> ->]|E]; [liaif|]. assert (c = 0) by lia. subst c. destruct (V2 E) as [-> | ->]; [liaif|destruct (x_tb x); liaif].
  - destruct (IsRowMajorOrVector (x_tc x) (x_ldc x) (x_m x) (x_n x)) eqn:E.
    + intros r c Hr Hcc. unfold c_pos, position. unfold IsRowMajorOrVector in E.
      destruct (x_tc x) eqn:Et; cbn [andb] in E.
      * destruct (x_ldc x =? x_n x) eqn:E1; [replace (x_ldc x) with (x_n x) by liaif; liaif|]. destruct (x_m x =? 1) eqn:E2; [|discriminate].
        assert (r = 0) by liaif. subst r. liaif.
      * destruct (x_m x =? 1) eqn:E2; [|discriminate]. assert (r = 0) by liaif. subst r.
        destruct (V3 ltac:(liaif)) as [D|[->|D]]; [discriminate|liaif|]. assert (c = 0) by liaif. subst c. liaif.
    + intros r c Hr Hcc. unfold c_pos, position. destruct Hc as [D|[[-> ->]|E1]]; [discriminate|liaif|].
      assert (c = 0) by liaif. subst c. destruct (V4 E1) as [->|[->|D]]; [liaif|destruct (x_tc x); liaif|].
      assert (r = 0) by liaif. subst r. destruct (x_tc x); liaif.
Qed.
Lemma layout_inj x r c r' c' : (row_layout x \/ col_layout x) -> 0 <= r < x_m x -> 0 <= c < x_n x -> 0 <= r' < x_m x -> 0 <= c' < x_n x ->
  c_pos x r c = c_pos x r' c' -> r = r' /\ c = c'.
Proof.
  intros [H|H] Hr Hc Hr' Hc'; rewrite (H r c), (H r' c') by assumption; intros E.
  - assert (r = r'); [|subst; lia]. nia.
  - assert (c = c'); [|subst; lia]. nia.
Qed.

Lemma AssureBytes_ok mode req addr junk s : 0 <= req -> req + 32 <= 2 ^ 31 - 1 -> bytes_ok s ->
  exists s', AssureBytes mode req addr junk s = Some s' /\ bytes_ok s' /\ req <= bs_size s' /\ bs_size s <= bs_size s'.
Proof.
  intros H0 H1 Hs. unfold AssureBytes. change (2 ^ 31 - 1) with 2147483647 in H1.
  destruct (bs_size s >=? req) eqn:E; [exists s; split; [reflexivity|]; split; [exact Hs|]; lia|].
  rewrite norm_fits by (try lia; change (int_min 32) with (-2147483648); change (int_max 32) with 2147483647; lia). cbn [bind].
  unfold guard at 1. replace (0 <=? req + 32) with true by lia. cbn [bind].
  pose proof (Z.mod_pos_bound addr 32 ltac:(lia)) as Hq. rewrite Z.rem_mod_nonneg by lia.
  set (skip := (32 - addr mod 32) mod 32).
  assert (Hk : 0 <= skip < 32) by (apply Z.mod_pos_bound; lia).
  assert (Hm : (addr + skip) mod 32 = 0).
  { unfold skip. rewrite Z.add_mod_idemp_r by lia. replace (addr + (32 - addr mod 32)) with ((addr / 32 + 1) * 32) by (pose proof (Z.div_mod addr 32); lia).
    apply Z.mod_mul. lia. }
  unfold guard. rewrite Hm. cbn [Z.eqb bind]. eexists. split; [reflexivity|]. cbn [bs_size]. split; [|lia]. split; cbn [bs_size bs_mem]; [lia|].
  intros i Hi. cbn [bs_mem]. replace ((0 <=? i) && (skip + i <? req + 32)) with true by lia. discriminate.
Qed.

Lemma flat_one {A} (logs : list (list A)) : execution [logs] (concat logs).
Proof. rewrite <- (app_nil_r (concat logs)). constructor; [apply interleaving_seq|constructor]. Qed.
Lemma entries_runs {A} esz (logs : list (list (Z * A))) : exists trace, execution (entries esz [logs]) trace.
Proof. eexists. apply flat_one. Qed.
Lemma entries_ok {A} esz (ph : phases A) m n addr v : 1 <= esz -> phases_ok ph m n (fun i j => esz * addr i j) v ->
  forall trace, execution (entries esz ph) trace -> log_over (rect m n) addr v trace.
Proof.
  intros He (logs & -> & H) tr Htr. unfold entries in Htr. cbn [map] in Htr. apply one_phase in Htr.
  rewrite <- concat_map in Htr. eapply log_perm; [exact Htr|]. destruct (H _ (flat_one logs)) as (vis & E & N & HI).
  exists vis. split; [|split; assumption]. rewrite E, map_map. apply map_ext. intros q. cbn [fst snd].
  f_equal. rewrite Z.mul_comm. apply Z.div_mul. lia.
Qed.
Lemma phases_ext {A} (ph : phases A) m n addr v addr' v' : (forall i j, rect m n i j -> addr i j = addr' i j /\ v i j = v' i j) ->
  phases_ok ph m n addr v -> phases_ok ph m n addr' v'.
Proof.
  intros He (logs & E & H). exists logs. split; [exact E|]. intros tr Htr. destruct (H tr Htr) as (vis & Ev & N & HI).
  exists vis. split; [|split; assumption]. rewrite Ev. apply map_ext_in. intros [i j] Hij. cbn [fst snd]. apply HI in Hij.
  destruct (He i j Hij) as [-> ->]. reflexivity.
Qed.
Lemma phases_swap {A} (ph : phases A) m n addr v : phases_ok ph n m (fun j i => addr i j) (fun j i => v i j) -> phases_ok ph m n addr v.
Proof.
  intros (logs & E & H). exists logs. split; [exact E|]. intros tr Htr. destruct (H tr Htr) as (vis & Ev & N & HI).
  exists (map (fun q => (snd q, fst q)) vis). split; [|split].
  - rewrite map_map, Ev. reflexivity.
  - apply Injective_map_NoDup; [|exact N]. intros [a b] [c d] E2. inversion E2. reflexivity.
  - intros i j. rewrite in_map_iff. split.
    + intros [[a b] [E2 H2]]. inversion E2; subst. apply HI in H2. unfold rect in *. lia.
    + intros H2. exists (j, i). split; [reflexivity|]. apply HI. unfold rect in *. lia.
Qed.

(* stores to distinct existing cells *)
Lemma store_all_ok {V} (log : list (Z * V)) : forall b, NoDup (map fst log) -> (forall a v, In (a, v) log -> b a <> None) ->
  exists b', store_all log b = Some b' /\ (forall a v, In (a, v) log -> b' a = Some v) /\ (forall i, ~ In i (map fst log) -> b' i = b i).
Proof.
  induction log as [|[a v] t IH]; intros b N Ha; [exists b; split; [reflexivity|]; split; [intros ? ? []|reflexivity]|].
  cbn [store_all]. destruct (b a) eqn:E; [|exfalso; exact (Ha a v (or_introl eq_refl) E)]. cbn [map fst] in N. inversion N as [|? ? N1 N2]; subst.
  destruct (IH (fun i => if i =? a then Some v else b i) N2) as (b' & E' & H1 & H2).
  { intros a' v' Hin. destruct (a' =? a); [discriminate|]. apply (Ha a' v'). right. exact Hin. }
  exists b'. split; [exact E'|]. split.
  - intros a' v' [Heq|Hin]; [injection Heq as <- <-|exact (H1 a' v' Hin)]. rewrite H2 by exact N1. rewrite Z.eqb_refl. reflexivity.
  - intros i Hi. cbn [map fst In] in Hi. rewrite H2 by tauto. destruct (Z.eqb_spec i a); [subst; tauto|reflexivity].
Qed.
Lemma NoDup_map_on {A B} (h : A -> B) l : NoDup l -> (forall a b, In a l -> In b l -> h a = h b -> a = b) -> NoDup (map h l).
Proof.
  induction l as [|a t IH]; intros N H; [constructor|]. inversion N as [|? ? N1 N2]; subst. cbn [map]. constructor.
  - rewrite in_map_iff. intros (b & E & Hb). apply N1. rewrite <- (H b a); [exact Hb|right; exact Hb|left; reflexivity|exact E].
  - apply IH; [exact N2|]. intros b c Hb Hc. apply H; right; assumption.
Qed.
Lemma log_writes {V} x (out : Z -> Z -> V) before trace : row_layout x \/ col_layout x ->
  (forall r c, 0 <= r < x_m x -> 0 <= c < x_n x -> before (c_pos x r c) <> None) ->
  log_over (rect (x_m x) (x_n x)) (c_pos x) out trace ->
  exists after, store_all trace before = Some after /\ writes x out before after.
Proof.
  intros HL Hb (vis & -> & N & HI).
  destruct (store_all_ok (map (fun q => (c_pos x (fst q) (snd q), out (fst q) (snd q))) vis) before) as (after & E & H1 & H2).
  - rewrite map_map. cbn [fst]. apply NoDup_map_on; [exact N|]. intros [r c] [r' c'] Hin Hin' E. cbn [fst snd] in E.
    apply HI in Hin. apply HI in Hin'. unfold rect in *. destruct (layout_inj x r c r' c' HL ltac:(lia) ltac:(lia) ltac:(lia) ltac:(lia) E). subst. reflexivity.
  - intros a v Hin. apply in_map_iff in Hin as ([r c] & E & Hin). injection E as <- <-. apply HI in Hin. unfold rect in Hin. apply Hb; cbn [fst snd]; lia.
  - exists after. split; [exact E|]. split.
    + intros r c Hr Hc. apply H1. apply in_map_iff. exists (r, c). split; [reflexivity|]. apply HI. unfold rect. lia.
    + intros i Hi. apply H2. rewrite map_map. cbn [fst]. rewrite in_map_iff. intros ([r c] & E2 & Hin). apply HI in Hin. unfold rect in Hin.
      apply (Hi r c); [lia|lia|]. symmetry. exact E2.
Qed.

(* the fast path as a whole, for any of the three kinds of result *)
Section Fast.
Context {A : Type} (mode : ovf) (kd : kind A) (fin : Z -> A).
Hypothesis Hfin : kd_fin kd = Some fin.
Hypothesis Hesz : 1 <= kd_esz kd.
Hypothesis Hbig : big_exists kd.
Lemma fastpath_ok x M before hw mnt addr junk s : CanHandleMetaFastpath x = true -> vectors_contiguous x ->
  fast_sizes mode (ResolveMaxThreads hw mnt) (x_aoff x) (x_boff x) (kd_add kd) x -> fast_buffers x M before -> bytes_ok s ->
  exists s' ph, MetaGemmFastpath mode kd hw mnt addr junk s x (bytes M (fst (x_a x))) (bytes M (fst (x_b x))) = Some (s', ph) /\
    bytes_ok s' /\ (exists trace, execution ph trace) /\
    forall trace, execution ph trace -> exists after, store_all trace before = Some after /\
      writes x (fun r c => fin (wrapS 32 (product x M r c + kd_add kd))) before after.
Proof.
  intros HC HV (Hm & Hn & Ht & Hmk & Hnk & Hfit & Hmode) (Ba & Bb & Bc) Hs.
  destruct (CanHandle_inv x HC) as (_ & Hk & _). destruct (CanHandle_layout x HC HV) as (La & Lb & Lc).
  unfold MetaGemmFastpath. unfold gemm_scratch. 
  rewrite norm_fits by (try lia; change (int_min 32) with (-2147483648); change (int_max 32) with 2147483647; lia). cbn [bind].
  destruct (AssureBytes_ok mode (ResolveMaxThreads hw mnt * (4 * 262144)) addr junk s ltac:(lia) ltac:(lia) Hs) as (s' & Es & Hs' & Hreq & _).
  rewrite Es. cbn [bind].
  assert (Ha : alloc (bs_mem s') 0 (Z.max 1 (ResolveMaxThreads hw mnt) * 1048576)).
  { eapply alloc_sub; [exact (proj2 Hs')|lia|lia]. }
  set (f := fun r d => byte_at (bytes M (fst (x_a x))) (a_pos x r d)).
  set (g := fun c d => byte_at (bytes M (fst (x_b x))) (b_pos x d c)).
  assert (RL : rows_in (mk_source (bytes M (fst (x_a x))) (snd (x_a x))) (x_k x) (x_m x) (x_k x) f).
  { intros r d Hr Hd. cbn [s_mem s_base]. rewrite <- La by assumption. destruct (Ba r d Hr Hd) as (v & E & Hv). unfold f, byte_at. rewrite E. split; [reflexivity|exact Hv]. }
  assert (RR : rows_in (mk_source (bytes M (fst (x_b x))) (snd (x_b x))) (x_k x) (x_n x) (x_k x) g).
  { intros c d Hc Hd. cbn [s_mem s_base]. rewrite <- Lb by assumption. destruct (Bb d c Hd Hc) as (v & E & Hv). unfold g, byte_at. rewrite E. split; [reflexivity|exact Hv]. }
  assert (P1 : params_arith mode kd (x_aoff x) (x_boff x) (x_k x)).
  { destruct Hmode as [Hw|(_ & F1 & F2 & F3 & F4)]; [left; exact Hw|right]. split; [exact F1|]. split; assumption. }
  assert (P2 : params_arith mode kd (x_boff x) (x_aoff x) (x_k x)).
  { destruct Hmode as [Hw|(_ & F1 & F2 & F3 & F4)]; [left; exact Hw|right]. split; [exact F2|].
    replace (x_k x * x_boff x * x_aoff x) with (x_k x * x_aoff x * x_boff x) by ring. split; assumption. }
  assert (HD : forall r c, dot (x_k x) (x_aoff x) (x_boff x) (f r) (g c) = product x M r c) by reflexivity.
  assert (Hmode' : mode = Wrap \/ x_m x * x_n x * x_k x <= 2 ^ 31 - 1) by tauto.
  destruct (IsRowMajorOrVector (x_tc x) (x_ldc x) (x_m x) (x_n x)) eqn:ER.
  - destruct (multi_thread_gemm_ok mode kd fin Hfin Hbig hw mnt (bs_mem s') _ _ (x_m x) (x_n x) (x_k x) (x_aoff x) (x_boff x) (kd_esz kd * snd (x_c x)) f g
               P1 P2 Hm Hn Hk Hmk Hnk Hmode' ltac:(unfold gemm_fits; lia) RL RR Ha) as (ph & E & HP).
    rewrite E. cbn [bind]. eexists. eexists. split; [reflexivity|]. split; [exact Hs'|]. split; [destruct HP as (logs & -> & _); apply entries_runs|].
    intros tr Htr. apply log_writes; [left; exact Lc|exact Bc|]. revert tr Htr. apply entries_ok; [exact Hesz|].
    eapply phases_ext; [|exact HP]. intros i j [Hi Hj]. cbn beta. split; [rewrite Lc by assumption; ring|]. unfold kvalue. rewrite HD. reflexivity.
  - destruct (multi_thread_gemm_ok mode kd fin Hfin Hbig hw mnt (bs_mem s') (mk_source (bytes M (fst (x_b x))) (snd (x_b x))) (mk_source (bytes M (fst (x_a x))) (snd (x_a x))) (x_n x) (x_m x) (x_k x) (x_boff x) (x_aoff x) (kd_esz kd * snd (x_c x)) g f
               P2 P1 Hn Hm Hk Hnk Hmk) as (ph & E & HP); auto.
    { destruct Hmode' as [Hw|Hw]; [left; exact Hw|right]. rewrite (Z.mul_comm (x_n x)). exact Hw. }
    { unfold gemm_fits. lia. }
    rewrite E. cbn [bind]. eexists. eexists. split; [reflexivity|]. split; [exact Hs'|]. split; [destruct HP as (logs & -> & _); apply entries_runs|].
    intros tr Htr. apply log_writes; [right; exact Lc|exact Bc|]. revert tr Htr. apply entries_ok; [exact Hesz|].
    apply phases_swap. eapply phases_ext; [|exact HP]. intros j i [Hj Hi]. cbn beta. split; [rewrite Lc by assumption; ring|]. unfold kvalue.
    rewrite dot_comm, HD. reflexivity.
Qed.
End Fast.

(* the rounding of the quantized kernels *)
Lemma q8_fin_eq mult shift a : 1 <= shift <= 31 -> wrapS 32 (a * mult) + 2 ^ (shift - 1) <= 2 ^ 31 - 1 ->
  q8_fin mult shift a = clampZ 0 255 (rnd_away (wrapS 32 (a * mult)) (2 ^ shift)).
Proof.
  intros Hs H. unfold q8_fin. cbv zeta. pose proof (wrapS_range 32 (a * mult) ltac:(lia)) as Hr. set (X := wrapS 32 (a * mult)) in *.
  assert (Hp : 0 < 2 ^ (shift - 1)) by (apply Z.pow_pos_nonneg; lia). 
  replace (2 ^ shift) with (2 * 2 ^ (shift - 1)) by (rewrite <- Z.pow_succ_r by lia; f_equal; lia). set (h := 2 ^ (shift - 1)) in *.
  change (int_min 32) with (- 2 ^ 31) in Hr. change (int_max 32) with (2 ^ 31 - 1) in Hr.
  rewrite (wrapS_small 32 (X + h)) by (try lia; change (int_min 32) with (- 2 ^ 31); change (int_max 32) with (2 ^ 31 - 1); lia).
  replace (clampZ 0 255 (rnd_away X (2 * h))) with (Z.max 0 (Z.min 255 (rnd_away X (2 * h)))) by (unfold clampZ; destruct (rnd_away X (2 * h) <? 0) eqn:?; [lia|destruct (255 <? rnd_away X (2 * h)) eqn:?; lia]).
  unfold rnd_away. destruct (Z.lt_trichotomy X 0) as [Hx|[->|Hx]].
  - assert (HL : (X + h) / (2 * h) <= 0). { apply Z.lt_succ_r. apply Z.div_lt_upper_bound; lia. }
    assert (HR : 0 <= (2 * Z.abs X + 2 * h) / (2 * (2 * h))) by (apply Z.div_pos; lia).
    rewrite (Z.sgn_neg X) by lia. lia.
  - replace (0 + h) with h by lia. rewrite (Z.div_small h) by lia. cbn. reflexivity.
  - rewrite Z.sgn_pos, Z.abs_eq by lia. replace (2 * X + 2 * h) with ((X + h) * 2) by ring. replace (2 * (2 * h)) with (2 * h * 2) by ring.
    rewrite Z.div_mul_cancel_r by lia. assert (0 <= (X + h) / (2 * h)) by (apply Z.div_pos; lia). lia.
Qed.
