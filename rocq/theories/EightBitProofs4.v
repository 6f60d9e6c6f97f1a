(* EightBitProofs4.v: consequences of EightBitProofs3.v in the form used by
   Props_EightBit.v, the refuted claims, and concrete instances. *)
From Coq Require Import SpecFloat Relation_Operators.
From Verif Require Import Base BaseLemmas CommonModel PackModel GemmSpec FixedPointModel FixedPointSpec FixedPointProofs ComputeModel KernelSpec KernelProofs
  OutputModel OutputSpec OutputProofs UnpackModel GemmModel GemmContract GemmProofs3 GemmProofs4 GemmProofs5 GemmExample
  EightBitModel EightBitSpec EightBitProofs EightBitProofs2 EightBitProofs3.

Lemma eight_bit_layout e settings M x off mult shift mnt sc scs : env_ok e -> holds_bytes M ->
  call_ok e settings M (CallU8 x off mult shift) -> settings mnt ->
  exists s, EightBitIntGemm_u8 e mnt sc scs x (bytes M (fst (x_a x))) (bytes M (fst (x_b x))) off mult shift = Some s /\
    (exists trace, execution s trace) /\
    forall trace, execution s trace ->
      NoDup (map fst trace) /\
      exists after, perform trace (bytes M (fst (x_c x))) = Some after /\
        if x_k x =? 0 then (forall i, after i = bytes M (fst (x_c x)) i)
        else writes x (u8_result x M off mult shift) (bytes M (fst (x_c x))) after.
Proof.
  intros He Hb Hc Hs. destruct (u8_stores e settings M x off mult shift mnt sc scs He Hb Hc Hs) as (s & E & G).
  exists s. split; [exact E|]. split; [exists (flat s); apply execution_seq|]. intros tr X.
  destruct Hc as (Ho & Hal & _). split.
  - specialize (G tr X). destruct (x_k x =? 0); [subst tr; constructor|]. eapply stores_once_addrs; [|exact G].
    pose proof (ao_ldc _ _ _ _ Ho). cbn. destruct (x_tc x); cbn; assumption.
  - assert (P : pending s (bytes M (fst (x_c x))) (fun _ => True) (u8_post x M off mult shift)).
    { eapply good_pending; [exact G|exact Hal|apply (ao_ldc _ _ _ _ Ho)|auto| |].
      - intros K. unfold u8_post. rewrite K. change (0 =? 0) with true. cbv iota. intros i. reflexivity.
      - intros after K [S1 S2]. unfold u8_post. replace (x_k x =? 0) with false by lia. split.
        + intros r k Hr Hk. specialize (S1 r k Hr Hk). rewrite result_addr in S1. exact S1.
        + intros i Hi. apply S2. intros r k Hr Hk. rewrite result_addr. apply Hi; assumption. }
    destruct (P tr X) as (_ & after & Ea & Pa). exists after. split; assumption.
Qed.
Lemma eight_bit_depth_setting e mnt sc scs ta tb tc m n k a ao lda b bo ldb c ldc A B off mult shift :
  EightBitIntGemm_u8 e mnt sc scs (mk_args ta tb tc m n k a ao lda b bo ldb c ldc A5B7) A B off mult shift
  = EightBitIntGemm_u8 e mnt sc scs (mk_args ta tb tc m n k a ao lda b bo ldb c ldc A8B8) A B off mult shift.
Proof. reflexivity. Qed.
(* swapping the roles of the two flag values is transposing the matrices *)
Lemma u8_result_exact e settings M x off mult shift r c : env_ok e -> holds_bytes M ->
  call_ok e settings M (CallU8 x off mult shift) -> e_mode e = Trap -> 0 <= r < x_m x -> 0 <= c < x_n x ->
  u8_result x M off mult shift r c = clampZ 0 255 (rnd_away ((product x M r c + off) * mult) (2 ^ shift)).
Proof.
  intros He Hb (Ho & _ & _ & _ & _ & Ha) Hm Hr Hc. destruct Ha as [?|(Ml & Mr & H1 & H2)]; [congruence|]. unfold u8_result.
  rewrite wrapS_small; [reflexivity|lia|]. apply fits_int. apply H2. apply (product_bound e settings); assumption.
Qed.

Section History.
Variables (e : env) (settings : Z -> Prop) (w0 : world) (prog : nat -> list call).
Hypothesis He : env_ok e.
Hypothesis H1 : settings 1.
Hypothesis Hctx : w_ctx w0 = None.
Hypothesis Hscr : w_scratch w0 = None.
Hypothesis Hb0 : holds_bytes (client w0).
Hypothesis Hcalls : forall t c, In c (prog t) -> call_ok e settings (client w0) c.

Lemma fresh_ok : lib_ok settings w0.
Proof. split; [rewrite Hctx|rewrite Hscr]; discriminate. Qed.

Lemma history_serializable s : sys_steps e (mk_sys w0 None prog []) s ->
  (forall t, calls_of t (s_order s) ++ s_prog s t = prog t) /\
  match s_lock s with
  | None => serial (map snd (s_order s)) (client w0) (client (s_world s))
  | Some (t, q) => q <> PCrash /\ exists o c M, s_order s = o ++ [(t, c)] /\ serial (map snd o) (client w0) M /\
      changes_only c M (client (s_world s)) /\ (q = PReturn -> effect c M (client (s_world s)))
  end.
Proof. apply (sys_serializable e settings (client w0) prog He H1 Hcalls w0 eq_refl fresh_ok Hb0). Qed.

Lemma history_results s1 s2 : sys_steps e (mk_sys w0 None prog []) s1 -> s_lock s1 = None ->
  sys_steps e (mk_sys w0 None prog []) s2 -> s_lock s2 = None ->
  filter is_gemm (map snd (s_order s1)) = filter is_gemm (map snd (s_order s2)) ->
  (forall b i, w_bytes (s_world s1) b i = w_bytes (s_world s2) b i) /\ (forall b i, w_floats (s_world s1) b i = w_floats (s_world s2) b i).
Proof.
  intros X1 L1 X2 L2 E. destruct (history_serializable s1 X1) as [_ S1]. destruct (history_serializable s2 X2) as [_ S2].
  rewrite L1 in S1. rewrite L2 in S2. destruct (serial_result_unique _ _ _ _ _ (eq_sym E) S2 S1) as [A B]. cbn [client bytes floats] in A, B.
  split; intros b i; [apply A|apply B].
Qed.

Lemma history_no_deadlock s t : sys_steps e (mk_sys w0 None prog []) s ->
  s_prog s t <> [] \/ s_lock s <> None -> exists s', sys_step e s s'.
Proof. apply (sys_no_deadlock e settings (client w0) prog He H1 Hcalls w0 eq_refl fresh_ok Hb0). Qed.

Lemma history_completes N : (forall t, (N <= t)%nat -> prog t = []) ->
  Acc (fun b a => sys_step e a b) (mk_sys w0 None prog []) /\
  exists s, sys_steps e (mk_sys w0 None prog []) s /\ s_lock s = None /\ forall t, s_prog s t = [].
Proof.
  intros HN. pose proof (sys_stops e N _ prog [] w0 HN (Nat.le_refl _)) as HA. split; [exact HA|].
  assert (G : forall s, Acc (fun b a => sys_step e a b) s -> sys_steps e (mk_sys w0 None prog []) s ->
    exists s', sys_steps e (mk_sys w0 None prog []) s' /\ s_lock s' = None /\ forall t, s_prog s' t = []).
  { intros s Hs. induction Hs as [s _ IH]. intros X. destruct (history_serializable s X) as [HO _].
    assert (Hz : forall t, (N <= t)%nat -> s_prog s t = []).
    { intros t Ht. specialize (HO t). rewrite (HN t Ht) in HO. apply app_eq_nil in HO. apply HO. }
    assert (D : (forall t, s_prog s t = []) \/ exists t, s_prog s t <> []).
    { assert (D : (forall t, (t < N)%nat -> s_prog s t = []) \/ exists t, s_prog s t <> []).
      { clear. induction N as [|n IH]; [left; lia|]. destruct IH as [IH|IH]; [|right; exact IH].
        destruct (s_prog s n) eqn:E; [left|right; exists n; congruence]. intros t Ht. destruct (Nat.eq_dec t n); [subst; exact E|apply IH; lia]. }
      destruct D as [D|D]; [left|right; exact D]. intros t. destruct (Nat.lt_ge_cases t N); [apply D; assumption|apply Hz; assumption]. }
    destruct (s_lock s) as [l|] eqn:EL.
    - destruct (history_no_deadlock s O X) as (s' & St); [right; congruence|]. apply (IH s' St). eapply sys_more; eassumption.
    - destruct D as [D|[t Ht]]; [exists s; auto|]. destruct (history_no_deadlock s t X) as (s' & St); [left; exact Ht|].
      apply (IH s' St). eapply sys_more; eassumption. }
  apply (G _ HA). apply sys_refl.
Qed.

Lemma serial_like l : forall M, (forall c, In c l -> call_ok e settings (client w0) c) -> forall N,
  like_initial (client w0) M -> serial l M N -> like_initial (client w0) N.
Proof.
  induction l as [|c t IH]; intros M Hl N HM.
  - intros [A B]. destruct HM as (P & Q & R). split; [|split]; intros b i; [intros v|..]; rewrite ?A, ?B; [apply P|apply Q|apply R].
  - intros (M1 & E & S). apply (IH M1); [intros; apply Hl; right; assumption| |exact S].
    eapply (effect_like e settings); [|exact HM|exact E]. eapply call_ok_like; [exact HM|]. apply Hl. left. reflexivity.
Qed.

Lemma in_order_prog s t c : (forall t, calls_of t (s_order s) ++ s_prog s t = prog t) -> In (t, c) (s_order s) -> In c (prog t).
Proof.
  intros HO Hin. rewrite <- HO. apply in_or_app. left. unfold calls_of. apply in_map_iff. exists (t, c). split; [reflexivity|].
  apply filter_In. split; [exact Hin|]. cbn. apply Nat.eqb_refl.
Qed.

Lemma history_float s o t x scale : sys_steps e (mk_sys w0 None prog []) s -> s_lock s = None -> s_order s = o ++ [(t, CallF32 x scale)] ->
  exists M, serial (map snd o) (client w0) M /\
    (forall r c, 0 <= r < x_m x -> 0 <= c < x_n x ->
       w_floats (s_world s) (fst (x_c x)) (c_pos x r c) = Some (fmul (float_of_int32 (wrapS 32 (product x M r c))) scale) /\
       (e_mode e = Trap -> fits 32 (product x M r c))) /\
    (forall b i, w_floats (s_world s) b i <> floats M b i ->
       b = fst (x_c x) /\ exists r c, 0 <= r < x_m x /\ 0 <= c < x_n x /\ i = c_pos x r c) /\
    (forall b i, w_bytes (s_world s) b i = bytes M b i).
Proof.
  intros X L Eo. destruct (history_serializable s X) as [HO HS]. rewrite L, Eo, map_app in HS. cbn [map snd] in HS.
  assert (SP : forall l c M N, serial (l ++ [c]) M N -> exists M1, serial l M M1 /\ effect c M1 N).
  { clear. induction l as [|d l IH]; intros c M N; cbn [app].
    - intros (M1 & E & A). exists M. split; [apply same_refl|]. eapply effect_same; [apply same_refl|exact A|exact E].
    - intros (M1 & E & S). destruct (IH _ _ _ S) as (M2 & S2 & E2). exists M2. split; [exists M1; auto|exact E2]. }
  destruct (SP _ _ _ _ HS) as (M & S & U & B & F). exists M. split; [exact S|].
  assert (Hcal : call_ok e settings (client w0) (CallF32 x scale)).
  { apply (Hcalls t). eapply in_order_prog; [exact HO|]. rewrite Eo. apply in_or_app. right. left. reflexivity. }
  assert (HK : like_initial (client w0) M).
  { eapply serial_like; [| |exact S].
    - intros c Hin. apply in_map_iff in Hin as ([u d] & <- & Hin). apply (Hcalls u). eapply in_order_prog; [exact HO|]. rewrite Eo. apply in_or_app. left. exact Hin.
    - split; [exact Hb0|]. split; tauto. }
  pose proof (call_ok_like e settings (client w0) M _ HK Hcal) as (Ho & Hk & _ & _ & Ha). cbn [client bytes floats] in *. destruct U as [U1 U2]. split; [|split].
  - intros r c Hr Hc. split; [apply U1; assumption|]. intros Ht. destruct Ha as [?|(Ml & Mr & Hsafe)]; [congruence|].
    rewrite <- (acc_exact e settings M x Ml Mr r c Ho (proj1 HK) He Hsafe Hr Hc). apply fits_int. apply wrapS_range. lia.
  - intros b i Hne. destruct (Nat.eq_dec b (fst (x_c x))) as [->|Hb]; [|rewrite B in Hne by exact Hb; congruence]. split; [reflexivity|].
    destruct (view_dec x i) as [V|V]; [exact V|]. rewrite U2 in Hne by exact V. congruence.
  - intros b i. apply F.
Qed.
End History.

(* ------------------------------------------------------------------ *)
(* concrete instances *)
Definition e8_env : env := mk_env Trap (ReferenceKernel Trap ex_fmt1) (ex_tune 64 64) 4.
Definition e8_settings (n : Z) : Prop := 0 <= n <= 1000.
Definition e8_bytes (b : nat) : mem := fun i =>
  if (0 <=? i) && (i <? 40) then Some (match b with O => (37 * i + 200) mod 256 | S O => (29 * i + 90) mod 256 | _ => 222 end) else None.
Definition e8_floats (b : nat) : fmem := fun i => if (0 <=? i) && (i <? 40) then Some S754_nan else None.
Definition e8_world : world := mk_world None None e8_bytes e8_floats.
Definition e8_args_at (a c : nat) (bits : bit_depth) (ta tb tc : bool) : args :=
  mk_args ta tb tc 2 3 3 (a, 3) (-128) 4 (1%nat, 2) (-100) 5 (c, 3) 4 bits.
Definition e8_args : bool -> bool -> bool -> args := e8_args_at 0 2 A8B8.
Definition half : float := S754_finite false 8388608 (-24).

Lemma e8_env_ok : env_ok e8_env.
Proof.
  destruct (ex_config_ok Trap ex_fmt1 64 64 4 3) as (A & B & P & C & _); [auto|lia|lia|lia|]. split; [exact A|]. split; [exact B|]. split; [exact P|]. split; [exact C|]. split; discriminate.
Qed.
Lemma e8_holds : holds_bytes (client e8_world).
Proof.
  intros b i v. cbn [client bytes e8_world w_bytes]. unfold e8_bytes. destruct ((0 <=? i) && (i <? 40)); [|discriminate]. intros [= <-].
  destruct b as [|[|b]]; lia.
Qed.
Lemma e8_args_ok a c bits ta tb tc : bits <> OtherDepth -> args_ok e8_env e8_settings (client e8_world) (e8_args_at a c bits ta tb tc).
Proof.
  intros Hbits. constructor.
  - unfold fits. cbn. lia.
  - cbn. lia.
  - exact Hbits.
  - intros r d Hr Hd. cbn in Hr, Hd. unfold a_pos, position. cbn [client bytes e8_world w_bytes e8_args_at x_a x_ta x_lda fst snd]. unfold e8_bytes.
    destruct ta; match goal with |- context [(0 <=? ?i) && _] => replace ((0 <=? i) && (i <? 40)) with true by lia end; discriminate.
  - intros d k Hd Hc. cbn in Hd, Hc. unfold b_pos, position. cbn [client bytes e8_world w_bytes e8_args_at x_b x_tb x_ldb fst snd]. unfold e8_bytes.
    destruct tb; match goal with |- context [(0 <=? ?i) && _] => replace ((0 <=? i) && (i <? 40)) with true by lia end; discriminate.
  - cbn. destruct tc; lia.
  - intros n Hn. unfold e8_settings in Hn. cbn [e8_args_at x_m x_n]. change (Z.max 2 3) with 3. right. cbv zeta. change (3 / 16 + 1) with 1.
    cbn [e8_env e_hw e_kernel]. assert (E : 1 <= (if n =? 0 then 4 else n)) by (destruct (n =? 0) eqn:?; lia).
    rewrite (Z.min_r _ 1) by exact E. change (kRows (k_fmt (ReferenceKernel Trap ex_fmt1))) with 4. lia.
Qed.
Lemma e8_safe a c bits ta tb tc : acc_safe e8_env (e8_args_at a c bits ta tb tc) 255 255.
Proof. unfold acc_safe. cbn. lia. Qed.
Lemma e8_u8_ok a c bits ta tb tc : bits <> OtherDepth -> c <> a -> c <> 1%nat ->
  call_ok e8_env e8_settings (client e8_world) (CallU8 (e8_args_at a c bits ta tb tc) 50 13 10).
Proof.
  intros Hbits Ha H1. split; [apply e8_args_ok; exact Hbits|]. split; [|split; [exact Ha|split; [exact H1|split; [unfold fits; cbn; lia|right]]]].
  - intros r k Hr Hc. cbn in Hr, Hc. unfold c_pos, position. cbn [client bytes e8_world w_bytes e8_args_at x_c x_tc x_ldc fst snd]. unfold e8_bytes.
    destruct tc; match goal with |- context [(0 <=? ?i) && _] => replace ((0 <=? i) && (i <? 40)) with true by lia end; discriminate.
  - exists 255, 255. split; [apply e8_safe|]. cbn [e8_args_at x_k]. intros z Hz. unfold fits. cbn. lia.
Qed.
Lemma e8_f32_ok a c bits ta tb tc : bits <> OtherDepth ->
  call_ok e8_env e8_settings (client e8_world) (CallF32 (e8_args_at a c bits ta tb tc) half).
Proof.
  intros Hbits. split; [apply e8_args_ok; exact Hbits|]. split; [cbn; lia|]. split; [|split].
  - intros r k Hr Hc. cbn in Hr, Hc. unfold c_pos, position. cbn [client floats e8_world w_floats e8_args_at x_c x_tc x_ldc fst snd]. unfold e8_floats.
    destruct tc; match goal with |- context [(0 <=? ?i) && _] => replace ((0 <=? i) && (i <? 40)) with true by lia end; discriminate.
  - cbn [e8_args_at x_tc x_m x_n x_ldc]. destruct tc; lia.
  - right. exists 255, 255. apply e8_safe.
Qed.
(* two threads: one sets the thread count and multiplies into buffer 2, the
   other multiplies into a float buffer, frees the resources and multiplies
   buffer 2 *)
Definition e8_prog (t : nat) : list call :=
  match t with
  | O => [CallSetMaxNumThreads 3; CallU8 (e8_args true false true) 50 13 10]
  | S O => [CallF32 (e8_args false false true) half; CallFreePersistentResources; CallU8 (e8_args_at 2 3 A5B7 true true true) 50 13 10]
  | _ => []
  end.
Lemma e8_prog_ok : forall t c, In c (e8_prog t) -> call_ok e8_env e8_settings (client e8_world) c.
Proof.
  intros [|[|t]] c Hin; cbn [e8_prog] in Hin; [| |contradiction].
  - destruct Hin as [<-|[<-|[]]]; [cbn; unfold e8_settings; lia|apply e8_u8_ok; discriminate].
  - destruct Hin as [<-|[<-|[<-|[]]]]; [apply e8_f32_ok; discriminate|exact I|apply e8_u8_ok; discriminate].
Qed.

(* depth 0: the result is whatever the scratch buffer contains *)
Definition depth0_args : args := mk_args false false true 1 1 0 (0%nat, 1) 0 1 (1%nat, 2) 0 1 (2%nat, 3) 1 A8B8.
Definition no_scratch : scratch := mk_scratch (fun _ => 0) (fun _ => 0) (fun _ => 0) (fun _ => 0) (fun _ => 0) (fun _ => 0) (fun _ => 0).
Lemma depth0_run v : exists w, clos_refl_trans_1n _ (body_step e8_env) (e8_world, PStart (CallF32 depth0_args half)) (w, PReturn) /\
  w_floats w 2%nat 3 = Some (fmul (float_of_int32 (wrapS 32 v)) half).
Proof.
  eexists. split.
  - eapply rt1n_trans; [apply bs_f32|].
    eapply rt1n_trans; [apply (bs_scratch e8_env _ _ _ 64 (fun _ => v))|].
    cbn [GetOrCreateGlobalContext GetOrCreateGlobalScratch e8_world w_ctx w_scratch w_bytes w_floats].
    change (scratch_bytes (e_mode e8_env) depth0_args) with (Some 4). cbn [bind].
    unfold AssureSize. change (so_size new_Scratch >=? 4) with false. cbv iota.
    change (norm (e_mode e8_env) 32 (4 + 32)) with (Some 36). cbn [bind]. change (guard (0 <=? 36)) with (Some tt). cbn [bind].
    change (Z.rem (32 - 64 mod 32) 32) with 0. change (guard ((64 + 0) mod 32 =? 0)) with (Some tt). cbn [bind crash_or].
    eapply rt1n_trans; [apply (bs_gemm e8_env _ _ _ no_scratch (fun _ _ => no_scratch))|].
    cbn [with_scratch w_ctx w_bytes bind].
    change (EightBitIntGemm_i32 e8_env 1 no_scratch (fun _ _ => no_scratch) depth0_args _ _) with (@Some stores []). cbn [crash_or].
    eapply rt1n_trans; [apply bs_stored|].
    change (conv_list depth0_args) with [0].
    eapply rt1n_trans; [apply bs_convert|].
    unfold convert_one. cbn [w_scratch bind so_mem w_floats]. change (e8_floats (fst (x_c depth0_args)) (snd (x_c depth0_args) + 0)) with (Some S754_nan).
    unfold rd. change ((0 <=? 0) && (0 + 4 * 0 + 4 <=? 36)) with true. cbv iota. cbn [bind crash_or].
    eapply rt1n_trans; [apply bs_converted|]. apply rt1n_refl.
  - reflexivity.
Qed.
Lemma depth0_refuted : exists e w x scale w1 w2, x_m x = 1 /\ x_n x = 1 /\ x_k x = 0 /\ w_ctx w = None /\ w_scratch w = None /\
  clos_refl_trans_1n _ (body_step e) (w, PStart (CallF32 x scale)) (w1, PReturn) /\
  clos_refl_trans_1n _ (body_step e) (w, PStart (CallF32 x scale)) (w2, PReturn) /\
  w_floats w1 (fst (x_c x)) (c_pos x 0 0) <> w_floats w2 (fst (x_c x)) (c_pos x 0 0).
Proof.
  destruct (depth0_run 7) as (w1 & R1 & F1). destruct (depth0_run 1000) as (w2 & R2 & F2).
  exists e8_env, e8_world, depth0_args, half, w1, w2. do 5 (split; [reflexivity|]). split; [exact R1|]. split; [exact R2|].
  change (fst (x_c depth0_args)) with 2%nat. change (c_pos depth0_args 0 0) with 3. rewrite F1, F2. vm_compute. discriminate.
Qed.
(* the byte count of the scratch buffer, truncated to 32 bits *)
Definition huge_args : args := mk_args false false true (2 ^ 15) 1 8 (0%nat, 0) 0 (2 ^ 15) (1%nat, 0) 0 8 (2%nat, 0) (2 ^ 15) A8B8.
Lemma huge_scratch_refuted : exists x, 0 < x_m x /\ 0 < x_n x /\ 0 < x_k x /\ x_n x <= x_ldc x /\ x_tc x = true /\ fits 32 (x_m x * x_ldc x) /\
  forall m addr junk, exists s', bind (scratch_bytes m x) (fun n => AssureSize m n addr junk new_Scratch) = Some s' /\ so_mem s' 0 = None.
Proof.
  exists huge_args. unfold fits. do 6 (split; [cbn; try reflexivity; try lia|]).
  intros m addr junk. exists new_Scratch. split; [|reflexivity]. destruct m; reflexivity.
Qed.
