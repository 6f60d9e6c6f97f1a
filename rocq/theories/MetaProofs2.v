(* MetaProofs2.v: the two executors and the dispatch of the Meta GEMM compute the
   product and stay in their scratch area. *)
From Verif Require Import Base BaseLemmas OutputModel EightBitModel MetaModel MetaSpec MetaProofs.

Lemma PackedStride_pos lanes s : 0 <= lanes -> 1 <= st_count s -> 32 <= PackedStride lanes 8 s.
Proof. intros H1 H2. rewrite PackedStride_eq by assumption. assert (0 <= lanes * blocks_of (st_count s)) by (unfold blocks_of; nia). lia. Qed.
Lemma PackedStride_mono l l' s : 0 <= l <= l' -> 1 <= st_count s -> PackedStride l 8 s <= PackedStride l' 8 s.
Proof.
  intros H1 H2. rewrite !PackedStride_eq by lia.
  assert (l * blocks_of (st_count s) <= l' * blocks_of (st_count s)) by (unfold blocks_of; nia). lia.
Qed.

(* N rows packed in chunks of n *)
Definition chunks_packed (sc : mem) (base n N : Z) (s : stream) (g : Z -> Z -> Z) : Prop :=
  (forall c, 0 <= c < N / n -> packed sc (base + c * PackedStride n 8 s) n s (fun l => g (n * c + l))) /\
  packed sc (base + N / n * PackedStride n 8 s) (N mod n) s (fun l => g (n * (N / n) + l)).
(* bytes they take *)
Definition chunks_size (n N : Z) (s : stream) : Z := (N + n - 1) / n * PackedStride n 8 s.

Lemma chunks_count n N : 0 < n -> 0 <= N -> (N + n - 1) / n = N / n + (if N mod n =? 0 then 0 else 1).
Proof.
  intros H1 H2. pose proof (Z.div_mod N n ltac:(lia)) as D. pose proof (Z.mod_pos_bound N n ltac:(lia)) as M.
  set (q := N / n) in *. set (r := N mod n) in *. symmetry. destruct (Z.eqb_spec r 0).
  - apply Z.div_unique with (r := n - 1); nia.
  - apply Z.div_unique with (r := r - 1); nia.
Qed.

Lemma chunks_packed_frame sc sc' lo hi base n N s g : 1 <= st_count s -> 1 <= n <= 8 -> 0 <= N ->
  chunks_packed sc base n N s g -> frame sc sc' lo hi -> hi <= base -> chunks_packed sc' base n N s g.
Proof.
  intros Hc Hn HN [P1 P2] F D. pose proof (PackedStride_pos n s ltac:(lia) Hc).
  assert (0 <= N / n) by (apply Z.div_pos; lia). pose proof (Z.mod_pos_bound N n ltac:(lia)). split.
  - intros c Hcc. eapply packed_frame; [exact Hc|apply P1, Hcc|exact F| |lia]. right. nia.
  - eapply packed_frame; [exact Hc|exact P2|exact F| |lia]. right. nia.
Qed.

(* the loop that packs chunks, single_thread_gemm.h 128-147 and 315-334 *)
Lemma pack_chunks_ok n N s input src base sc g :
  1 <= n <= 8 -> 0 <= N -> 1 <= st_count s <= 2056 ->
  rows_in (mk_source input src) (st_stride s) N (st_count s) g ->
  alloc sc base (base + chunks_size n N s) ->
  exists sc1 sc2,
    for_step 0 (N / n) 1 (fun i sc => StreamPack n (st_count s mod 8) s input (src + i * (n * st_stride s))
       (base + i * PackedStride n 8 s) sc) sc = Some sc1 /\
    StreamPack (N mod n) (st_count s mod 8) s input (src + N / n * (n * st_stride s)) (base + N / n * PackedStride n 8 s) sc1 = Some sc2 /\
    frame sc sc2 base (base + chunks_size n N s) /\ chunks_packed sc2 base n N s g.
Proof.
  intros Hn HN Hc Hin Ha. pose proof (Z.div_mod N n ltac:(lia)) as D. pose proof (Z.mod_pos_bound N n ltac:(lia)) as M.
  assert (Hq : 0 <= N / n) by (apply Z.div_pos; lia).
  unfold chunks_size in *. rewrite chunks_count in Ha |- * by lia. set (q := N / n) in *. set (r := N mod n) in *.
  set (PS := PackedStride n 8 s) in *. assert (HPS : 32 <= PS) by (apply PackedStride_pos; lia).
  unfold rows_in in Hin. cbn [s_mem s_base] in Hin.
  set (tot := (q + (if r =? 0 then 0 else 1)) * PS) in *.
  assert (Htot : q * PS <= tot) by (unfold tot; destruct (r =? 0); nia).
  destruct (for_step_inv1 (fun i s1 => frame sc s1 base (base + tot) /\
       forall c, 0 <= c < i -> packed s1 (base + c * PS) n s (fun l => g (n * c + l)))
     0 q (fun i sc => StreamPack n (st_count s mod 8) s input (src + i * (n * st_stride s)) (base + i * PS) sc) sc) as [s1 [E1 [F1 P1]]].
  - lia.
  - split; [apply frame_refl|intros; lia].
  - intros i s0 Hi [F0 P0].
    assert (Hb : 0 <= i * PS /\ (i + 1) * PS <= q * PS) by nia.
    destruct (StreamPack_ok n s input (src + i * (n * st_stride s)) (base + i * PS) s0 (fun l => g (n * i + l))) as (s2 & E2 & F2 & P2).
    + lia.
    + lia.
    + intros l d Hl Hd. replace (src + i * (n * st_stride s) + l * st_stride s + d) with (src + (n * i + l) * st_stride s + d) by lia.
      apply Hin; [|lia]. assert (n * (i + 1) <= n * q) by nia. lia.
    + intros _. eapply alloc_sub; [eapply frame_alloc; [exact F0|exact Ha]| |]; fold PS; lia.
    + exists s2. split; [exact E2|]. destruct (Z.eqb_spec n 0); [lia|]. fold PS in F2. split.
      * eapply frame_trans; [exact F0|]. eapply frame_sub; [exact F2| |]; lia.
      * intros c Hcc. destruct (Z.eq_dec c i) as [->|Hne]; [exact P2|].
        eapply packed_frame; [lia|apply P0; lia|exact F2| |lia]. left. fold PS. nia.
  - destruct (StreamPack_ok r s input (src + q * (n * st_stride s)) (base + q * PS) s1 (fun l => g (n * q + l))) as (s2 & E2 & F2 & P2).
    + lia.
    + lia.
    + intros l d Hl Hd. replace (src + q * (n * st_stride s) + l * st_stride s + d) with (src + (n * q + l) * st_stride s + d) by lia.
      apply Hin; lia.
    + intros Hr. eapply alloc_sub; [eapply frame_alloc; [exact F1|exact Ha]| |]; [nia|].
      unfold tot. destruct (Z.eqb_spec r 0); [lia|]. pose proof (PackedStride_mono r n s ltac:(lia) ltac:(lia)). fold PS in H. lia.
    + exists s1, s2. split; [exact E1|]. split; [exact E2|]. split.
      * eapply frame_trans; [exact F1|]. eapply frame_sub; [exact F2| |]; [nia|]. unfold tot.
        destruct (Z.eqb_spec r 0); [lia|]. pose proof (PackedStride_mono r n s ltac:(lia) ltac:(lia)). fold PS in H. lia.
      * split; [|exact P2]. fold q PS. intros c Hcc. eapply packed_frame; [lia|apply P1, Hcc|exact F2| |lia]. left. fold PS. nia.
Qed.

Section Executors.
Context {A : Type} (p : gemm_params A).

(* the inner loop over packed chunks of the right operand *)
Lemma rhs_strip_ok m n mm f g src res sc log :
  1 <= m <= 8 -> 1 <= n <= 8 -> 1 <= mm <= m -> kernel_exists m n = true -> 0 <= p_n p -> 1 <= p_k p <= 2056 ->
  st_count (p_left p) = p_k p -> st_count (p_right p) = p_k p -> p_count p = p_k p ->
  rows_in src (st_stride (p_left p)) mm (p_k p) f ->
  alloc sc (p_scratch p) (p_scratch p + PackedStride m 8 (p_left p)) ->
  chunks_packed sc (p_scratch p + PackedStride m 8 (p_left p)) n (p_n p) (p_right p) g ->
  exists sc' t, rhs_strip p n 8 (p_n p mod n) (p_k p mod 8) (p_scratch p + PackedStride m 8 (p_left p)) mm src res (sc, log)
     = Some (sc', log ++ t) /\
    frame sc sc' (p_scratch p) (p_scratch p + PackedStride m 8 (p_left p)) /\
    log_over (rect mm (p_n p)) (fun i j => res + i * p_ostride p + j * p_esz p) (entry_value p f g) t.
Proof.
  intros Hm Hn Hmm He HN Hk HL HR HC Hin Ha HP. unfold rhs_strip. cbn [fst snd].
  rewrite Z.quot_div_nonneg by lia.
  pose proof (PackedStride_mono mm m (p_left p) ltac:(lia) ltac:(lia)) as Hmono.
  destruct (StreamPack_ok mm (p_left p) (s_mem src) (s_base src) (p_scratch p) sc f) as (s1 & E1 & F1 & P1).
  { lia. } { lia. } { rewrite HL. exact Hin. } { intros _. eapply alloc_sub; [exact Ha|lia|lia]. }
  rewrite HL in E1. rewrite E1. cbn [bind]. clear E1. destruct (Z.eqb_spec mm 0); [lia|].
  assert (F1' : frame sc s1 (p_scratch p) (p_scratch p + PackedStride m 8 (p_left p))) by (eapply frame_sub; [exact F1| |]; lia).
  assert (HP1 : chunks_packed s1 (p_scratch p + PackedStride m 8 (p_left p)) n (p_n p) (p_right p) g).
  { eapply chunks_packed_frame; [lia|lia|lia|exact HP|exact F1'|lia]. }
  destruct HP1 as [Q1 Q2].
  set (base := p_scratch p + PackedStride m 8 (p_left p)) in *. set (PS := PackedStride n 8 (p_right p)) in *.
  pose proof (Z.div_mod (p_n p) n ltac:(lia)) as D. pose proof (Z.mod_pos_bound (p_n p) n ltac:(lia)) as M.
  assert (Hq : 0 <= p_n p / n) by (apply Z.div_pos; lia). set (q := p_n p / n) in *. set (r := p_n p mod n) in *.
  set (addr := fun i j => res + i * p_ostride p + j * p_esz p).
  destruct (for_step_inv1 (fun j l => exists t, l = log ++ t /\ log_over (rect mm (n * j)) addr (entry_value p f g) t) 0 q
     (fun j log => let* t := Multiply mm n (p_count p) (p_fin p) (p_esz p) (p_ostride p) s1 (p_scratch p)
                (base + j * PS) (res + j * (p_esz p * n)) in Some (log ++ t)) log) as [l1 [E2 [t1 [-> L1]]]].
  - lia.
  - exists []. rewrite app_nil_r. split; [reflexivity|]. apply log_nil. unfold rect. lia.
  - intros j l Hj [t [-> L]].
    destruct (Multiply_ok p mm n s1 (p_scratch p) (base + j * PS) (res + j * (p_esz p * n)) f (fun l => g (n * j + l))) as (t2 & E2 & L2).
    { lia. } { lia. } { intros _ _. eapply kernel_exists_le; [exact He| |]; lia. } { lia. } { lia. } { lia. } { exact P1. } { apply Q1. lia. }
    rewrite E2. cbn [bind]. eexists. split; [reflexivity|]. exists (t ++ t2). split; [rewrite app_assoc; reflexivity|].
    eapply (log_shift _ _ _ _ 0 (n * j)) in L2.
    eapply (log_ext _ (fun x y => 0 <= x < mm /\ n * j <= y < n * j + n) _ addr _ (entry_value p f g)) in L2.
    + eapply log_ext; [eapply log_app; [exact L|exact L2|]| |auto]; unfold rect; lia.
    + unfold rect. lia.
    + intros x y _. unfold addr. split; [lia|]. unfold entry_value, stream_total. rewrite Z.sub_0_r, HC.
      replace (n * j + (y - n * j)) with y by lia. reflexivity.
  - rewrite E2. cbn [bind].
    destruct (Multiply_ok p mm r s1 (p_scratch p) (base + q * PS) (res + q * (p_esz p * n)) f (fun l => g (n * q + l))) as (t2 & E3 & L2).
    { lia. } { lia. } { intros _ Hr. eapply kernel_exists_le; [exact He| |]; lia. } { lia. } { lia. } { lia. } { exact P1. } { exact Q2. }
    rewrite E3. cbn [bind]. exists s1, (t1 ++ t2). rewrite app_assoc. split; [reflexivity|]. split; [exact F1'|].
    eapply (log_shift _ _ _ _ 0 (n * q)) in L2.
    eapply (log_ext _ (fun x y => 0 <= x < mm /\ n * q <= y < n * q + r) _ addr _ (entry_value p f g)) in L2.
    + eapply log_ext; [eapply log_app; [exact L1|exact L2|]| |auto]; unfold rect; lia.
    + unfold rect. lia.
    + intros x y _. unfold addr. split; [lia|]. unfold entry_value, stream_total. rewrite Z.sub_0_r, HC.
      replace (n * q + (y - n * q)) with y by lia. reflexivity.
Qed.

Definition rhs_need (m n : Z) : Z := PackedStride m 8 (p_left p) + chunks_size n (p_n p) (p_right p).
Lemma PackRHS_ok m n f g sc log : kernel_exists m n = true -> params_ok p f g ->
  alloc sc (p_scratch p) (p_scratch p + rhs_need m n) ->
  exists sc' t, PackRHS m n 8 (p_m p mod m) (p_n p mod n) (p_k p mod 8) p (sc, log) = Some (sc', log ++ t) /\
    frame sc sc' (p_scratch p) (p_scratch p + rhs_need m n) /\
    log_over (rect (p_m p) (p_n p)) (entry_address p) (entry_value p f g) t.
Proof.
  intros He [Hm Hn Hk HL HR HC RL RR] Ha. pose proof (kernel_exists_range m n He) as Hr.
  unfold PackRHS. cbn [fst snd]. rewrite !Z.quot_div_nonneg by lia. unfold UnpackedStride, rhs_need in *.
  set (PM := PackedStride m 8 (p_left p)) in *. assert (HPM : 32 <= PM) by (apply PackedStride_pos; lia).
  assert (Hcs : 0 <= chunks_size n (p_n p) (p_right p)).
  { unfold chunks_size. apply Z.mul_nonneg_nonneg; [apply Z.div_pos; lia|]. pose proof (PackedStride_pos n (p_right p) ltac:(lia) ltac:(lia)). lia. }
  destruct (pack_chunks_ok n (p_n p) (p_right p) (s_mem (p_rhs p)) (s_base (p_rhs p)) (p_scratch p + PM) sc g) as (s1 & s2 & E1 & E2 & F2 & P2).
  { lia. } { lia. } { lia. } { rewrite HR. exact RR. } { eapply alloc_sub; [exact Ha|lia|lia]. }
  rewrite HR in E1, E2. rewrite E1. cbn [bind]. rewrite E2. cbn [bind]. clear E1 E2 s1.
  set (hi := p_scratch p + (PM + chunks_size n (p_n p) (p_right p))) in *.
  pose proof (Z.div_mod (p_m p) m ltac:(lia)) as D. pose proof (Z.mod_pos_bound (p_m p) m ltac:(lia)) as M.
  assert (Hq : 0 <= p_m p / m) by (apply Z.div_pos; lia). set (q := p_m p / m) in *. set (r := p_m p mod m) in *.
  assert (Strip : forall i mm (st : state A) t0, 0 <= i -> 1 <= mm <= m -> m * i + mm <= p_m p -> snd st = log ++ t0 -> frame sc (fst st) (p_scratch p) hi ->
     chunks_packed (fst st) (p_scratch p + PM) n (p_n p) (p_right p) g ->
     log_over (rect (m * i) (p_n p)) (entry_address p) (entry_value p f g) t0 ->
     exists sc' t, rhs_strip p n 8 (p_n p mod n) (p_k p mod 8) (p_scratch p + PM) mm (advance (p_lhs p) (i * (m * st_stride (p_left p))))
        (p_result p + i * (m * p_ostride p)) st = Some (sc', log ++ t) /\ frame sc sc' (p_scratch p) hi /\
        chunks_packed sc' (p_scratch p + PM) n (p_n p) (p_right p) g /\
        log_over (rect (m * i + mm) (p_n p)) (entry_address p) (entry_value p f g) t).
  { intros i mm [s0 l0] t0 Hi Hmm Hle El F0 P0 L0. cbn [fst snd] in *. subst l0.
    destruct (rhs_strip_ok m n mm (fun x => f (m * i + x)) g (advance (p_lhs p) (i * (m * st_stride (p_left p))))
       (p_result p + i * (m * p_ostride p)) s0 (log ++ t0)) as (s3 & t3 & E3 & F3 & L3); try lia.
    { exact He. }
    { intros x d Hx Hd. unfold advance. cbn [s_mem s_base].
      replace (s_base (p_lhs p) + i * (m * st_stride (p_left p)) + x * st_stride (p_left p) + d)
        with (s_base (p_lhs p) + (m * i + x) * st_stride (p_left p) + d) by lia. apply RL; [|lia]. nia. }
    { eapply alloc_sub; [eapply frame_alloc; [exact F0|exact Ha]| |]; fold PM; unfold hi in *; lia. }
    { exact P0. }
    fold PM in E3, F3. exists s3, (t0 ++ t3). rewrite E3, app_assoc. split; [reflexivity|].
    split. { eapply frame_trans; [exact F0|]. eapply frame_sub; [exact F3|lia|unfold hi; lia]. }
    split. { eapply chunks_packed_frame; [lia|lia|lia|exact P0|exact F3|lia]. }
    eapply (log_shift _ _ _ _ (m * i) 0) in L3.
    eapply (log_ext _ (fun x y => m * i <= x < m * i + mm /\ 0 <= y < p_n p) _ (entry_address p) _ (entry_value p f g)) in L3.
    - eapply log_ext; [eapply log_app; [exact L0|exact L3|]| |auto]; unfold rect; nia.
    - unfold rect. lia.
    - intros x y _. unfold entry_address. split; [lia|]. unfold entry_value, stream_total. rewrite Z.sub_0_r.
      replace (m * i + (x - m * i)) with x by lia. reflexivity. }
  destruct (for_step_inv1 (fun i (st : state A) => exists t, snd st = log ++ t /\ frame sc (fst st) (p_scratch p) hi /\
      chunks_packed (fst st) (p_scratch p + PM) n (p_n p) (p_right p) g /\
      log_over (rect (m * i) (p_n p)) (entry_address p) (entry_value p f g) t) 0 q
     (fun i => rhs_strip p n 8 (p_n p mod n) (p_k p mod 8) (p_scratch p + PM) m (advance (p_lhs p) (i * (m * st_stride (p_left p))))
      (p_result p + i * (m * p_ostride p))) (s2, log)) as [[s3 l3] [E3 [t3 [El [F3 [P3 L3]]]]]].
  - lia.
  - exists []. rewrite app_nil_r. cbn [fst snd]. split; [reflexivity|]. split; [eapply frame_sub; [exact F2|lia|unfold hi; lia]|].
    split; [exact P2|]. apply log_nil. unfold rect. lia.
  - intros i st Hi [t0 [El [F0 [P0 L0]]]].
    destruct (Strip i m st t0) as (s4 & t4 & E4 & F4 & P4 & L4); auto; try lia. { nia. }
    exists (s4, log ++ t4). split; [exact E4|]. exists t4. cbn [fst snd]. split; [reflexivity|]. split; [exact F4|]. split; [exact P4|].
    replace (m * (i + 1)) with (m * i + m) by lia. exact L4.
  - rewrite E3. cbn [bind fst snd] in *. destruct (Z.ltb_spec 0 r) as [Hr0|Hr0].
    + destruct (Strip q r (s3, l3) t3) as (s4 & t4 & E4 & F4 & P4 & L4); auto; try lia.
      exists s4, t4. split; [exact E4|]. split; [exact F4|]. rewrite D. exact L4.
    + exists s3, t3. rewrite El. split; [reflexivity|]. split; [exact F3|]. replace (p_m p) with (m * q) by lia. exact L3.
Qed.

(* the inner loop over packed chunks of the left operand *)
Lemma lhs_strip_ok m n nn f g src res sc log :
  1 <= m <= 8 -> 1 <= n <= 8 -> 1 <= nn <= n -> kernel_exists m n = true -> 0 <= p_m p -> 1 <= p_k p <= 2056 ->
  st_count (p_left p) = p_k p -> st_count (p_right p) = p_k p -> p_count p = p_k p ->
  rows_in src (st_stride (p_right p)) nn (p_k p) g ->
  alloc sc (p_scratch p) (p_scratch p + PackedStride n 8 (p_right p)) ->
  chunks_packed sc (p_scratch p + PackedStride n 8 (p_right p)) m (p_m p) (p_left p) f ->
  exists sc' t, lhs_strip p m 8 (p_m p mod m) (p_k p mod 8) (p_scratch p + PackedStride n 8 (p_right p)) nn src res (sc, log)
     = Some (sc', log ++ t) /\
    frame sc sc' (p_scratch p) (p_scratch p + PackedStride n 8 (p_right p)) /\
    log_over (rect (p_m p) nn) (fun i j => res + i * p_ostride p + j * p_esz p) (entry_value p f g) t.
Proof.
  intros Hm Hn Hmm He HN Hk HL HR HC Hin Ha HP. unfold lhs_strip. cbn [fst snd].
  rewrite Z.quot_div_nonneg by lia.
  pose proof (PackedStride_mono nn n (p_right p) ltac:(lia) ltac:(lia)) as Hmono.
  destruct (StreamPack_ok nn (p_right p) (s_mem src) (s_base src) (p_scratch p) sc g) as (s1 & E1 & F1 & P1).
  { lia. } { lia. } { rewrite HR. exact Hin. } { intros _. eapply alloc_sub; [exact Ha|lia|lia]. }
  rewrite HR in E1. rewrite E1. cbn [bind]. clear E1. destruct (Z.eqb_spec nn 0); [lia|].
  assert (F1' : frame sc s1 (p_scratch p) (p_scratch p + PackedStride n 8 (p_right p))) by (eapply frame_sub; [exact F1| |]; lia).
  assert (HP1 : chunks_packed s1 (p_scratch p + PackedStride n 8 (p_right p)) m (p_m p) (p_left p) f).
  { eapply chunks_packed_frame; [lia|lia|lia|exact HP|exact F1'|lia]. }
  destruct HP1 as [Q1 Q2].
  set (base := p_scratch p + PackedStride n 8 (p_right p)) in *. set (PS := PackedStride m 8 (p_left p)) in *.
  pose proof (Z.div_mod (p_m p) m ltac:(lia)) as D. pose proof (Z.mod_pos_bound (p_m p) m ltac:(lia)) as M.
  assert (Hq : 0 <= p_m p / m) by (apply Z.div_pos; lia). set (q := p_m p / m) in *. set (r := p_m p mod m) in *.
  set (addr := fun i j => res + i * p_ostride p + j * p_esz p).
  destruct (for_step_inv1 (fun j l => exists t, l = log ++ t /\ log_over (rect (m * j) nn) addr (entry_value p f g) t) 0 q
     (fun j log => let* t := Multiply m nn (p_count p) (p_fin p) (p_esz p) (p_ostride p) s1
                (base + j * PS) (p_scratch p) (res + j * (m * p_ostride p)) in Some (log ++ t)) log) as [l1 [E2 [t1 [-> L1]]]].
  - lia.
  - exists []. rewrite app_nil_r. split; [reflexivity|]. apply log_nil. unfold rect. lia.
  - intros j l Hj [t [-> L]].
    destruct (Multiply_ok p m nn s1 (base + j * PS) (p_scratch p) (res + j * (m * p_ostride p)) (fun l => f (m * j + l)) g) as (t2 & E2 & L2).
    { lia. } { lia. } { intros _ _. eapply kernel_exists_le; [exact He| |]; lia. } { lia. } { lia. } { lia. } { apply Q1. lia. } { exact P1. }
    rewrite E2. cbn [bind]. eexists. split; [reflexivity|]. exists (t ++ t2). split; [rewrite app_assoc; reflexivity|].
    eapply (log_shift _ _ _ _ (m * j) 0) in L2.
    eapply (log_ext _ (fun x y => m * j <= x < m * j + m /\ 0 <= y < nn) _ addr _ (entry_value p f g)) in L2.
    + eapply log_ext; [eapply log_app; [exact L|exact L2|]| |auto]; unfold rect; lia.
    + unfold rect. lia.
    + intros x y _. unfold addr. split; [lia|]. unfold entry_value, stream_total. rewrite Z.sub_0_r, HC.
      replace (m * j + (x - m * j)) with x by lia. reflexivity.
  - rewrite E2. cbn [bind].
    destruct (Multiply_ok p r nn s1 (base + q * PS) (p_scratch p) (res + q * (m * p_ostride p)) (fun l => f (m * q + l)) g) as (t2 & E3 & L2).
    { lia. } { lia. } { intros Hr _. eapply kernel_exists_le; [exact He| |]; lia. } { lia. } { lia. } { lia. } { exact Q2. } { exact P1. }
    rewrite E3. cbn [bind]. exists s1, (t1 ++ t2). rewrite app_assoc. split; [reflexivity|]. split; [exact F1'|].
    eapply (log_shift _ _ _ _ (m * q) 0) in L2.
    eapply (log_ext _ (fun x y => m * q <= x < m * q + r /\ 0 <= y < nn) _ addr _ (entry_value p f g)) in L2.
    + eapply log_ext; [eapply log_app; [exact L1|exact L2|]| |auto]; unfold rect; lia.
    + unfold rect. lia.
    + intros x y _. unfold addr. split; [lia|]. unfold entry_value, stream_total. rewrite Z.sub_0_r, HC.
      replace (m * q + (x - m * q)) with x by lia. reflexivity.
Qed.

Definition lhs_need (m n : Z) : Z := PackedStride n 8 (p_right p) + chunks_size m (p_m p) (p_left p).
Lemma PackLHS_ok m n f g sc log : kernel_exists m n = true -> params_ok p f g ->
  alloc sc (p_scratch p) (p_scratch p + lhs_need m n) ->
  exists sc' t, PackLHS m n 8 (p_m p mod m) (p_n p mod n) (p_k p mod 8) p (sc, log) = Some (sc', log ++ t) /\
    frame sc sc' (p_scratch p) (p_scratch p + lhs_need m n) /\
    log_over (rect (p_m p) (p_n p)) (entry_address p) (entry_value p f g) t.
Proof.
  intros He [Hm Hn Hk HL HR HC RL RR] Ha. pose proof (kernel_exists_range m n He) as Hr.
  unfold PackLHS. cbn [fst snd]. rewrite !Z.quot_div_nonneg by lia. unfold UnpackedStride, lhs_need in *.
  set (PM := PackedStride n 8 (p_right p)) in *. assert (HPM : 32 <= PM) by (apply PackedStride_pos; lia).
  assert (Hcs : 0 <= chunks_size m (p_m p) (p_left p)).
  { unfold chunks_size. apply Z.mul_nonneg_nonneg; [apply Z.div_pos; lia|]. pose proof (PackedStride_pos m (p_left p) ltac:(lia) ltac:(lia)). lia. }
  destruct (pack_chunks_ok m (p_m p) (p_left p) (s_mem (p_lhs p)) (s_base (p_lhs p)) (p_scratch p + PM) sc f) as (s1 & s2 & E1 & E2 & F2 & P2).
  { lia. } { lia. } { lia. } { rewrite HL. exact RL. } { eapply alloc_sub; [exact Ha|lia|lia]. }
  rewrite HL in E1, E2. rewrite E1. cbn [bind]. rewrite E2. cbn [bind]. clear E1 E2 s1.
  set (hi := p_scratch p + (PM + chunks_size m (p_m p) (p_left p))) in *.
  pose proof (Z.div_mod (p_n p) n ltac:(lia)) as D. pose proof (Z.mod_pos_bound (p_n p) n ltac:(lia)) as M.
  assert (Hq : 0 <= p_n p / n) by (apply Z.div_pos; lia). set (q := p_n p / n) in *. set (r := p_n p mod n) in *.
  assert (Strip : forall i nn (st : state A) t0, 0 <= i -> 1 <= nn <= n -> n * i + nn <= p_n p -> snd st = log ++ t0 -> frame sc (fst st) (p_scratch p) hi ->
     chunks_packed (fst st) (p_scratch p + PM) m (p_m p) (p_left p) f ->
     log_over (rect (p_m p) (n * i)) (entry_address p) (entry_value p f g) t0 ->
     exists sc' t, lhs_strip p m 8 (p_m p mod m) (p_k p mod 8) (p_scratch p + PM) nn (advance (p_rhs p) (i * (n * st_stride (p_right p))))
        (p_result p + i * (p_esz p * n)) st = Some (sc', log ++ t) /\ frame sc sc' (p_scratch p) hi /\
        chunks_packed sc' (p_scratch p + PM) m (p_m p) (p_left p) f /\
        log_over (rect (p_m p) (n * i + nn)) (entry_address p) (entry_value p f g) t).
  { intros i nn [s0 l0] t0 Hi Hmm Hle El F0 P0 L0. cbn [fst snd] in *. subst l0.
    destruct (lhs_strip_ok m n nn f (fun x => g (n * i + x)) (advance (p_rhs p) (i * (n * st_stride (p_right p))))
       (p_result p + i * (p_esz p * n)) s0 (log ++ t0)) as (s3 & t3 & E3 & F3 & L3); try lia.
    { exact He. }
    { intros x d Hx Hd. unfold advance. cbn [s_mem s_base].
      replace (s_base (p_rhs p) + i * (n * st_stride (p_right p)) + x * st_stride (p_right p) + d)
        with (s_base (p_rhs p) + (n * i + x) * st_stride (p_right p) + d) by lia. apply RR; [|lia]. nia. }
    { eapply alloc_sub; [eapply frame_alloc; [exact F0|exact Ha]| |]; fold PM; unfold hi in *; lia. }
    { exact P0. }
    fold PM in E3, F3. exists s3, (t0 ++ t3). rewrite E3, app_assoc. split; [reflexivity|].
    split. { eapply frame_trans; [exact F0|]. eapply frame_sub; [exact F3|lia|unfold hi; lia]. }
    split. { eapply chunks_packed_frame; [lia|lia|lia|exact P0|exact F3|lia]. }
    eapply (log_shift _ _ _ _ 0 (n * i)) in L3.
    eapply (log_ext _ (fun x y => 0 <= x < p_m p /\ n * i <= y < n * i + nn) _ (entry_address p) _ (entry_value p f g)) in L3.
    - eapply log_ext; [eapply log_app; [exact L0|exact L3|]| |auto]; unfold rect; nia.
    - unfold rect. lia.
    - intros x y _. unfold entry_address. split; [lia|]. unfold entry_value, stream_total. rewrite Z.sub_0_r.
      replace (n * i + (y - n * i)) with y by lia. reflexivity. }
  destruct (for_step_inv1 (fun i (st : state A) => exists t, snd st = log ++ t /\ frame sc (fst st) (p_scratch p) hi /\
      chunks_packed (fst st) (p_scratch p + PM) m (p_m p) (p_left p) f /\
      log_over (rect (p_m p) (n * i)) (entry_address p) (entry_value p f g) t) 0 q
     (fun i => lhs_strip p m 8 (p_m p mod m) (p_k p mod 8) (p_scratch p + PM) n (advance (p_rhs p) (i * (n * st_stride (p_right p))))
      (p_result p + i * (p_esz p * n))) (s2, log)) as [[s3 l3] [E3 [t3 [El [F3 [P3 L3]]]]]].
  - lia.
  - exists []. rewrite app_nil_r. cbn [fst snd]. split; [reflexivity|]. split; [eapply frame_sub; [exact F2|lia|unfold hi; lia]|].
    split; [exact P2|]. apply log_nil. unfold rect. lia.
  - intros i st Hi [t0 [El [F0 [P0 L0]]]].
    destruct (Strip i n st t0) as (s4 & t4 & E4 & F4 & P4 & L4); auto; try lia. { nia. }
    exists (s4, log ++ t4). split; [exact E4|]. exists t4. cbn [fst snd]. split; [reflexivity|]. split; [exact F4|]. split; [exact P4|].
    replace (n * (i + 1)) with (n * i + n) by lia. exact L4.
  - rewrite E3. cbn [bind fst snd] in *. destruct (Z.ltb_spec 0 r) as [Hr0|Hr0].
    + destruct (Strip q r (s3, l3) t3) as (s4 & t4 & E4 & F4 & P4 & L4); auto; try lia.
      exists s4, t4. split; [exact E4|]. split; [exact F4|]. rewrite D. exact L4.
    + exists s3, t3. rewrite El. split; [reflexivity|]. split; [exact F3|]. replace (p_n p) with (n * q) by lia. exact L3.
Qed.

Lemma dispatch_leftovers_ok {B} v left (run : Z -> option B) : 0 <= left <= Z.of_nat v -> dispatch_leftovers v left run = run left.
Proof.
  induction v as [|v IH]; intros H; cbn [dispatch_leftovers].
  - replace left with 0 by lia. reflexivity.
  - destruct (Z.eqb_spec left (Z.of_nat (S v))) as [->|Hne]; [reflexivity|]. apply IH. lia.
Qed.
Lemma MetaGemm_eq (e : executor A) m n st : 0 < m -> 0 < n -> 0 <= p_m p -> 0 <= p_n p -> 0 <= p_k p ->
  MetaGemm e m n 8 p st = e m n 8 (p_m p mod m) (p_n p mod n) (p_k p mod 8) p st.
Proof.
  intros Hm Hn H1 H2 H3. unfold MetaGemm. rewrite !Z.rem_mod_nonneg by lia.
  pose proof (Z.mod_pos_bound (p_m p) m Hm). pose proof (Z.mod_pos_bound (p_n p) n Hn). pose proof (Z.mod_pos_bound (p_k p) 8 ltac:(lia)).
  rewrite !dispatch_leftovers_ok by lia. reflexivity.
Qed.
End Executors.

(* what a Gemm call with an executor does; need: bytes of scratch *)
Lemma computes_more {A} run (p : gemm_params A) need need' f g : computes run p need f g -> need <= need' -> computes run p need' f g.
Proof.
  intros H Hle sc log Ha. destruct (H sc log) as (s & t & E & F & L).
  - eapply alloc_sub; [exact Ha|lia|lia].
  - exists s, t. split; [exact E|]. split; [|exact L]. eapply frame_sub; [exact F|lia|lia].
Qed.
Lemma MetaGemm_PackRHS {A} (p : gemm_params A) m n f g : kernel_exists m n = true -> params_ok p f g ->
  computes (MetaGemm PackRHS m n 8 p) p (rhs_need p m n) f g.
Proof.
  intros He Hp sc log Ha. pose proof (kernel_exists_range m n He). destruct (Hp) as [Hm Hn Hk _ _ _ _ _].
  rewrite MetaGemm_eq by lia. apply PackRHS_ok; assumption.
Qed.
Lemma MetaGemm_PackLHS {A} (p : gemm_params A) m n f g : kernel_exists m n = true -> params_ok p f g ->
  computes (MetaGemm PackLHS m n 8 p) p (lhs_need p m n) f g.
Proof.
  intros He Hp sc log Ha. pose proof (kernel_exists_range m n He). destruct (Hp) as [Hm Hn Hk _ _ _ _ _].
  rewrite MetaGemm_eq by lia. apply PackLHS_ok; assumption.
Qed.
