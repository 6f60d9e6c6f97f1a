(* EightBitProofs2.v: one EightBitIntGemm call from taking the lock to releasing
   it. *)
From Coq Require Import SpecFloat Permutation.
From Verif Require Import Base BaseLemmas CommonModel PackModel GemmSpec FixedPointModel FixedPointSpec FixedPointProofs ComputeModel KernelSpec
  OutputModel OutputSpec OutputProofs UnpackModel GemmModel GemmContract GemmProofs3 GemmProofs4 GemmProofs5 EightBitModel EightBitSpec EightBitProofs.

Lemma set_buf_eq {A} (f : nat -> A) i v : set_buf f i v i = v.
Proof. unfold set_buf. rewrite Nat.eqb_refl. reflexivity. Qed.
Lemma set_buf_neq {A} (f : nat -> A) i j v : j <> i -> set_buf f i v j = f j.
Proof. intros H. unfold set_buf. destruct (Nat.eqb_spec j i); [contradiction|reflexivity]. Qed.

Lemma view_dec x i : (exists r c, 0 <= r < x_m x /\ 0 <= c < x_n x /\ i = c_pos x r c) \/
  (forall r c, 0 <= r < x_m x -> 0 <= c < x_n x -> i <> c_pos x r c).
Proof.
  destruct (in_dec Z.eq_dec i (map (fun q => c_pos x (fst q) (snd q)) (list_prod (zrange (x_m x)) (zrange (x_n x))))) as [Hi|Hn].
  - left. apply in_map_iff in Hi as ([r c] & <- & Hin). apply in_prod_iff in Hin as [A1 A2].
    apply zrange_In in A1. apply zrange_In in A2. exists r, c. auto.
  - right. intros r c Hr Hc ->. apply Hn. apply in_map_iff. exists (r, c). split; [reflexivity|]. apply in_prod_iff.
    split; apply zrange_In; assumption.
Qed.

(* ------------------------------------------------------------------ *)
(* stores still to be performed *)
Definition pending (s : stores) (cur : mem) (inside : Z -> Prop) (post : mem -> Prop) : Prop :=
  forall tr, execution s tr ->
    (forall a v, In (a, v) tr -> inside a) /\ exists after, perform tr cur = Some after /\ post after.

Lemma pending_store ls1 a v l ls2 phs cur inside post :
  pending ((ls1 ++ ((a, v) :: l) :: ls2) :: phs) cur inside post ->
  inside a /\ exists cur', wr cur a v = Some cur' /\ pending ((ls1 ++ l :: ls2) :: phs) cur' inside post.
Proof.
  intros H.
  assert (X : forall tr, execution ((ls1 ++ l :: ls2) :: phs) tr -> execution ((ls1 ++ ((a, v) :: l) :: ls2) :: phs) ((a, v) :: tr)).
  { intros tr Hx. inversion Hx as [|? ? t1 t2 H1 H2]; subst. change ((a, v) :: t1 ++ t2) with (((a, v) :: t1) ++ t2).
    constructor; [|exact H2]. constructor. exact H1. }
  destruct (H _ (X _ (execution_seq _))) as (Hin & after & Hp & _). split; [apply (Hin a v); left; reflexivity|].
  cbn [perform] in Hp. destruct (wr cur a v) as [cur'|] eqn:E; [|discriminate]. exists cur'. split; [reflexivity|].
  intros tr Hx. destruct (H _ (X _ Hx)) as (Hin' & after' & Hp' & Hpost). split.
  - intros a' v' Hi. apply (Hin' a' v'). right. exact Hi.
  - exists after'. split; [|exact Hpost]. cbn [perform] in Hp'. rewrite E in Hp'. exact Hp'.
Qed.
Lemma pending_phase ph phs cur inside post : (forall l, In l ph -> l = []) ->
  pending (ph :: phs) cur inside post -> pending phs cur inside post.
Proof.
  intros He H tr Hx. apply (H ([] ++ tr)). constructor; [constructor; exact He|exact Hx].
Qed.
Lemma pending_done cur inside post : pending [] cur inside post -> post cur.
Proof. intros H. destruct (H [] (ex_nil)) as (_ & after & E & P). injection E as <-. exact P. Qed.

(* ------------------------------------------------------------------ *)
(* the scratch buffer *)
Lemma new_Scratch_ok : scratch_ok new_Scratch.
Proof. split; [cbn; lia|]. intros i H1 H2. cbn [new_Scratch so_size] in H2. lia. Qed.
Lemma AssureSize_ok m req addr junk s : 0 <= req -> req + 32 <= 2 ^ 31 - 1 -> scratch_ok s ->
  exists s', AssureSize m req addr junk s = Some s' /\ scratch_ok s' /\ req <= so_size s' /\ so_size s <= so_size s'.
Proof.
  intros H0 H1 Hs. unfold AssureSize. change (2 ^ 31 - 1) with 2147483647 in H1.
  destruct (so_size s >=? req) eqn:E; [exists s; split; [reflexivity|]; split; [exact Hs|]; lia|].
  rewrite norm_fits by (try lia; change (int_min 32) with (-2147483648); change (int_max 32) with 2147483647; lia). cbn [bind].
  unfold guard at 1. replace (0 <=? req + 32) with true by lia. cbn [bind]. 
  pose proof (Z.mod_pos_bound addr 32 ltac:(lia)) as Hq. rewrite Z.rem_mod_nonneg by lia.
  set (skip := (32 - addr mod 32) mod 32).
  assert (Hk : 0 <= skip < 32) by (apply Z.mod_pos_bound; lia).
  assert (Hm : (addr + skip) mod 32 = 0).
  { unfold skip. rewrite Z.add_mod_idemp_r by lia. replace (addr + (32 - addr mod 32)) with ((addr / 32 + 1) * 32) by (pose proof (Z.div_mod addr 32); lia).
    apply Z.mod_mul. lia. }
  unfold guard. rewrite Hm. cbn [Z.eqb bind]. eexists. split; [reflexivity|]. cbn [so_size]. split; [|lia]. split; cbn [so_size so_mem]; [lia|].
  intros i Hi Hle. replace ((0 <=? i) && (skip + 4 * i + 4 <=? req + 32)) with true by lia. discriminate.
Qed.
Definition cells (x : args) : Z := (if x_tc x then x_m x else x_n x) * x_ldc x.
Lemma scratch_bytes_ok m x : 0 <= cells x -> 4 * cells x + 32 <= 2 ^ 31 - 1 -> scratch_bytes m x = Some (4 * cells x).
Proof.
  intros H0 H1. change (2 ^ 31 - 1) with 2147483647 in H1. unfold scratch_bytes. fold (cells x).
  rewrite norm_fits by (try lia; change (int_min 32) with (-2147483648); change (int_max 32) with 2147483647; lia). cbn [bind]. f_equal.
  unfold wrapU. rewrite (Z.mod_small (cells x)) by (split; [lia|apply Z.lt_le_trans with 2147483647; [lia|cbv; discriminate]]).
  rewrite Z.mod_small by (split; [lia|apply Z.lt_le_trans with 2147483647; [lia|cbv; discriminate]]).
  rewrite wrapS_small by (try lia; change (int_min 32) with (-2147483648); change (int_max 32) with 2147483647; lia). lia.
Qed.
Lemma position_cells x r c : 0 <= r < x_m x -> 0 <= c < x_n x -> (if x_tc x then x_n x else x_m x) <= x_ldc x ->
  0 <= position (x_tc x) (x_ldc x) r c < cells x.
Proof. unfold position, cells. destruct (x_tc x); intros; nia. Qed.
Lemma position_inj x r c r' c' : 0 <= r < x_m x -> 0 <= c < x_n x -> 0 <= r' < x_m x -> 0 <= c' < x_n x ->
  (if x_tc x then x_n x else x_m x) <= x_ldc x ->
  position (x_tc x) (x_ldc x) r c = position (x_tc x) (x_ldc x) r' c' -> r = r' /\ c = c'.
Proof.
  unfold position. assert (D : forall s a b x y, 0 <= a < s -> 0 <= b < s -> x * s + a = y * s + b -> x = y) by (clear; intros; nia).
  destruct (x_tc x); intros Hr Hc Hr' Hc' Hl E.
  - assert (r = r') by (apply (D (x_ldc x) c c'); lia). subst r'. lia.
  - assert (c = c') by (apply (D (x_ldc x) r r'); lia). subst c'. lia.
Qed.
Lemma conv_list_In x i : In i (conv_list x) <-> exists r c, 0 <= r < x_m x /\ 0 <= c < x_n x /\ i = position (x_tc x) (x_ldc x) r c.
Proof.
  unfold conv_list, position. destruct (x_tc x); rewrite in_flat_map; split.
  - intros (r & Hr & Hin). apply in_map_iff in Hin as (c & <- & Hc). apply zrange_In in Hr. apply zrange_In in Hc. exists r, c. auto.
  - intros (r & c & Hr & Hc & ->). exists r. split; [apply zrange_In; exact Hr|]. apply in_map_iff. exists c. split; [reflexivity|]. apply zrange_In; exact Hc.
  - intros (c & Hc & Hin). apply in_map_iff in Hin as (r & <- & Hr). apply zrange_In in Hr. apply zrange_In in Hc. exists r, c. auto.
  - intros (r & c & Hr & Hc & ->). exists c. split; [apply zrange_In; exact Hc|]. apply in_map_iff. exists r. split; [reflexivity|]. apply zrange_In; exact Hr.
Qed.

(* ------------------------------------------------------------------ *)
Section Call.
Variables (e : env) (settings : Z -> Prop).
Hypothesis He : env_ok e.
Hypothesis H1 : settings 1.

Definition lib_ok (w : world) : Prop :=
  (forall n, w_ctx w = Some n -> settings n) /\ (forall s, w_scratch w = Some s -> scratch_ok s).

Definition u8_post (x : args) (M : memories) (off mult shift : Z) (after : mem) : Prop :=
  if x_k x =? 0 then forall i, after i = bytes M (fst (x_c x)) i
  else writes x (u8_result x M off mult shift) (bytes M (fst (x_c x))) after.
Definition i32_post (x : args) (M : memories) (after : mem) : Prop :=
  forall r c, 0 <= r < x_m x -> 0 <= c < x_n x -> after (position (x_tc x) (x_ldc x) r c) = Some (wrapS 32 (product x M r c)).
Definition in_result (x : args) (a : Z) : Prop := exists r c, 0 <= r < x_m x /\ 0 <= c < x_n x /\ a = c_pos x r c.

Definition body_inv (c : call) (M : memories) (w : world) (q : pc) : Prop :=
  lib_ok w /\
  match q with
  | PStart c' => c' = c /\ client w = M
  | PScratch x sc => c = CallF32 x sc /\ client w = M /\ w_ctx w <> None
  | PGemm x sc => c = CallF32 x sc /\ client w = M /\ w_ctx w <> None /\
      exists s, w_scratch w = Some s /\ 4 * cells x <= so_size s
  | PStore c' phs => c' = c /\
      match c with
      | CallU8 x off mult shift => w_floats w = floats M /\ (forall b, b <> fst (x_c x) -> w_bytes w b = bytes M b) /\
          (forall a, ~ in_result x a -> w_bytes w (fst (x_c x)) a = bytes M (fst (x_c x)) a) /\
          pending phs (w_bytes w (fst (x_c x))) (in_result x) (u8_post x M off mult shift)
      | CallF32 x sc => client w = M /\
          exists s, w_scratch w = Some s /\ pending phs (so_mem s) (fun _ => True) (i32_post x M)
      | _ => False
      end
  | PConvert x sc l => c = CallF32 x sc /\ w_bytes w = bytes M /\ (forall b, b <> fst (x_c x) -> w_floats w b = floats M b) /\
      (exists s, w_scratch w = Some s /\ i32_post x M (so_mem s)) /\
      exists done, done ++ l = conv_list x /\
        (forall i, w_floats w (fst (x_c x)) i <> None <-> floats M (fst (x_c x)) i <> None) /\
        (forall r k, 0 <= r < x_m x -> 0 <= k < x_n x -> In (position (x_tc x) (x_ldc x) r k) done ->
           w_floats w (fst (x_c x)) (c_pos x r k) = Some (f32_result x M sc r k)) /\
        (forall a, ~ In (a - snd (x_c x)) done -> w_floats w (fst (x_c x)) a = floats M (fst (x_c x)) a)
  | PReturn => effect c M (client w)
  | PCrash => False
  end.

Lemma ctx_ok w : lib_ok w -> lib_ok (GetOrCreateGlobalContext w) /\ exists n, w_ctx (GetOrCreateGlobalContext w) = Some n /\ settings n.
Proof.
  intros [A B]. assert (S : settings (match w_ctx w with Some n => n | None => 1 end)) by (destruct (w_ctx w) eqn:E; [apply A; reflexivity|exact H1]).
  split; [|eexists; split; [reflexivity|exact S]]. split; [|exact B]. cbn. intros n [= <-]. exact S.
Qed.

Lemma client_eq w M : client w = M -> w_bytes w = bytes M /\ w_floats w = floats M.
Proof. intros <-. split; reflexivity. Qed.

Lemma good_pending x base out s cur (inside : Z -> Prop) (post : mem -> Prop) : good_stores x base out s ->
  (forall r c, 0 <= r < x_m x -> 0 <= c < x_n x -> cur (base + position (x_tc x) (x_ldc x) r c) <> None) ->
  (if x_tc x then x_n x else x_m x) <= x_ldc x ->
  (forall r c, 0 <= r < x_m x -> 0 <= c < x_n x -> inside (base + position (x_tc x) (x_ldc x) r c)) ->
  (x_k x = 0 -> post cur) ->
  (forall after, x_k x <> 0 -> stored cur after (result_of (x_tc x) x base) out -> post after) ->
  pending s cur inside post.
Proof.
  intros G Hal Hl Hin H0 Hp tr Hx. specialize (G tr Hx). destruct (x_k x =? 0) eqn:K.
  - subst tr. split; [contradiction|]. exists cur. split; [reflexivity|]. apply H0. lia.
  - split.
    + intros a v Hi. destruct G as (vis & E & _ & HV). rewrite E in Hi. apply in_map_iff in Hi as ([r c] & Eq & Hi). injection Eq as <- _.
      rewrite result_addr. apply HV in Hi. cbn in Hi. apply Hin; tauto.
    + destruct (stores_once_stored (result_of (x_tc x) x base) out tr cur) as (after & E & HS); [|exact G|].
      * split.
        -- intros r c Hr Hc. rewrite result_addr. specialize (Hal r c Hr Hc). destruct (cur _) as [v|]; [exists v; reflexivity|congruence].
        -- cbn. destruct (x_tc x); cbn; lia.
      * exists after. split; [exact E|]. apply Hp; [lia|exact HS].
Qed.


Lemma upd_alloc m0 a v m1 : wr m0 a v = Some m1 -> forall i, m1 i <> None <-> m0 i <> None.
Proof.
  unfold wr. destruct (m0 a) as [o|] eqn:E; [|discriminate]. intros [= <-] i. unfold upd. destruct (Z.eqb_spec i a) as [->|]; [|tauto].
  rewrite E. split; congruence.
Qed.
Lemma upd_other m0 a v m1 i : wr m0 a v = Some m1 -> i <> a -> m1 i = m0 i.
Proof.
  unfold wr. destruct (m0 a) as [o|] eqn:E; [|discriminate]. intros [= <-] H. unfold upd. destruct (Z.eqb_spec i a); [contradiction|reflexivity].
Qed.

Lemma body_ok c M w q w' q' : holds_bytes M -> call_ok e settings M c -> body_inv c M w q ->
  body_step e (w, q) (w', q') -> body_inv c M w' q'.
Proof.
  intros Hb Hc [HL HI] St. remember (w, q) as p eqn:Ep. remember (w', q') as p' eqn:Ep'.
  destruct St as [w1 x off mult shift sc scs|w1 x scale|w1 x scale addr junk|w1 x scale sc scs|w1 c1 ls1 a v l ls2 phs|w1 c1 ph phs Hph|w1 c1|w1 x scale i l|w1 x scale|w1 n|w1];
    injection Ep as <- <-; cbn [body_inv] in HI.
  - (* uint8 call *)
    destruct HI as [<- HM]. destruct (client_eq _ _ HM) as [HB HF]. destruct (ctx_ok w1 HL) as (HL1 & n & En & Sn). cbv zeta in Ep'.
    rewrite En in Ep'. cbn [bind] in Ep'. cbn [GetOrCreateGlobalContext w_bytes] in Ep'. rewrite HB in Ep'.
    destruct (u8_stores e settings M x off mult shift n sc scs He Hb Hc Sn) as (s & E & G). rewrite E in Ep'. cbn [crash_or] in Ep'.
    injection Ep' as <- <-. split; [exact HL1|]. split; [reflexivity|]. cbn [GetOrCreateGlobalContext w_bytes w_floats]. rewrite HB, HF.
    split; [reflexivity|]. split; [reflexivity|]. split; [reflexivity|].
    destruct Hc as (Ho & Hal & _). eapply good_pending; [exact G|exact Hal|apply (ao_ldc _ _ _ _ Ho)| | |].
    + intros r k Hr Hk. exists r, k. auto.
    + intros K. unfold u8_post. rewrite K. change (0 =? 0) with true. cbv iota. intros i. reflexivity.
    + intros after K [S1 S2]. unfold u8_post. replace (x_k x =? 0) with false by lia. split.
      * intros r k Hr Hk. specialize (S1 r k Hr Hk). rewrite result_addr in S1. exact S1.
      * intros i Hi. apply S2. intros r k Hr Hk. rewrite result_addr. apply Hi; assumption.
  - (* float call *)
    destruct HI as [<- HM]. injection Ep' as <- <-. destruct (ctx_ok w1 HL) as (HL1 & n & En & Sn). split; [exact HL1|].
    split; [reflexivity|]. split; [exact HM|]. rewrite En. discriminate.
  - (* scratch *)
    destruct HI as (-> & HM & Hx). destruct Hc as (Ho & Hk & Hal & Hsz & Ha). fold (cells x) in Hsz.
    assert (Hcell : 0 <= cells x).
    { unfold cells. pose proof (ao_ldc _ _ _ _ Ho). destruct (ao_sizes _ _ _ _ Ho) as (? & ? & _). destruct (x_tc x); nia. }
    cbv zeta in Ep'. rewrite scratch_bytes_ok in Ep' by assumption. cbn [bind] in Ep'.
    assert (HS : scratch_ok (GetOrCreateGlobalScratch w1)).
    { unfold GetOrCreateGlobalScratch. destruct (w_scratch w1) eqn:E; [apply (proj2 HL); exact E|apply new_Scratch_ok]. }
    destruct (AssureSize_ok (e_mode e) (4 * cells x) addr junk _ ltac:(lia) ltac:(lia) HS) as (s' & E & HS' & Hge & _). rewrite E in Ep'.
    cbn [crash_or] in Ep'. injection Ep' as <- <-. split; [|split; [reflexivity|split; [exact HM|split; [exact Hx|]]]].
    + split; [exact (proj1 HL)|]. cbn. intros s [= <-]. exact HS'.
    + exists s'. split; [reflexivity|exact Hge].
  - (* int32 GEMM *)
    destruct HI as (-> & HM & Hx & s0 & Es & Hge). destruct (client_eq _ _ HM) as [HB HF]. destruct (w_ctx w1) as [n|] eqn:En; [|congruence].
    cbn [bind] in Ep'. rewrite HB in Ep'. destruct (i32_stores e settings M x scale n sc scs He Hb Hc (proj1 HL n En)) as (s & E & G).
    rewrite E in Ep'. cbn [crash_or] in Ep'. injection Ep' as <- <-. split; [exact HL|]. split; [reflexivity|]. split; [exact HM|].
    exists s0. split; [exact Es|]. destruct Hc as (Ho & Hk & _). eapply good_pending; [exact G| |apply (ao_ldc _ _ _ _ Ho)|auto| |].
    + intros r k Hr Hkk. cbn [Z.add]. destruct (position_cells x r k Hr Hkk (ao_ldc _ _ _ _ Ho)) as [P1 P2].
      apply (proj2 (proj2 HL s0 Es)); lia.
    + lia.
    + intros after K [S1 S2] r k Hr Hkk. specialize (S1 r k Hr Hkk). rewrite result_addr in S1. exact S1.
  - (* store *)
    destruct HI as [-> HI]. destruct c as [x off mult shift|x scale|n|]; try contradiction.
    + destruct HI as (HF & HB & Hout & HP). destruct (pending_store _ _ _ _ _ _ _ _ _ HP) as (Hin & cur' & Ew & HP').
      cbn [store_for] in Ep'. rewrite Ew in Ep'. cbn [bind crash_or] in Ep'. injection Ep' as <- <-.
      split; [exact HL|]. split; [reflexivity|]. cbn [w_bytes w_floats]. rewrite set_buf_eq. split; [exact HF|]. split; [|split; [|exact HP']].
      * intros b Hne. rewrite set_buf_neq by exact Hne. apply HB. exact Hne.
      * intros i Hi. rewrite (upd_other _ _ _ _ i Ew) by (intros ->; contradiction). apply Hout. exact Hi.
    + destruct HI as (HM & s & Es & HP). destruct (pending_store _ _ _ _ _ _ _ _ _ HP) as (_ & cur' & Ew & HP').
      cbn [store_for] in Ep'. rewrite Es in Ep'. cbn [bind] in Ep'. rewrite Ew in Ep'. cbn [bind crash_or] in Ep'. injection Ep' as <- <-.
      split; [|split; [reflexivity|]].
      * split; [exact (proj1 HL)|]. cbn. intros s1 [= <-]. destruct (proj2 HL s Es) as [A B]. split; [exact A|]. cbn. intros i I1 I2.
        apply (upd_alloc _ _ _ _ Ew). apply B; assumption.
      * split; [exact HM|]. eexists. split; [reflexivity|]. exact HP'.
  - (* end of a phase *)
    destruct HI as [-> HI]. injection Ep' as <- <-. split; [exact HL|]. split; [reflexivity|].
    destruct c as [x off mult shift|x scale|n|]; try contradiction.
    + destruct HI as (HF & HB & Hout & HP). split; [exact HF|]. split; [exact HB|]. split; [exact Hout|]. eapply pending_phase; eassumption.
    + destruct HI as (HM & s & Es & HP). split; [exact HM|]. exists s. split; [exact Es|]. eapply pending_phase; eassumption.
  - (* end of the GEMM *)
    destruct HI as [-> HI]. injection Ep' as <- <-. split; [exact HL|].
    destruct c as [x off mult shift|x scale|n|]; try contradiction.
    + destruct HI as (HF & HB & Hout & HP). apply pending_done in HP. cbn [effect client bytes floats]. split; [exact HP|].
      split; [intros b i Hne; rewrite HB by exact Hne; reflexivity|]. rewrite HF. reflexivity.
    + destruct HI as (HM & s & Es & HP). apply pending_done in HP. destruct (client_eq _ _ HM) as [HB HF]. split; [reflexivity|].
      split; [exact HB|]. rewrite HF. split; [reflexivity|]. split; [exists s; split; assumption|]. exists []. split; [reflexivity|].
      split; [tauto|]. split; [contradiction|]. reflexivity.
  - (* one conversion *)
    destruct HI as (-> & HB & HF & (s & Es & Hs) & done & Ed & Hal & Hdone & Hrest). destruct Hc as (Ho & Hk & Hcal & _).
    assert (Hin : In i (conv_list x)) by (rewrite <- Ed; apply in_or_app; right; left; reflexivity).
    apply conv_list_In in Hin as (r & k & Hr & Hkk & Ei).
    unfold convert_one in Ep'. rewrite Es in Ep'. cbn [bind] in Ep'. unfold rd in Ep'. rewrite Ei, (Hs r k Hr Hkk) in Ep'. cbn [bind] in Ep'.
    rewrite <- Ei in Ep'.
    assert (Ha : w_floats w1 (fst (x_c x)) (snd (x_c x) + i) <> None).
    { apply Hal. rewrite Ei. apply (Hcal r k Hr Hkk). }
    destruct (w_floats w1 (fst (x_c x)) (snd (x_c x) + i)) as [old|] eqn:Eo; [|congruence]. cbn [bind crash_or] in Ep'. injection Ep' as <- <-.
    split; [split; [exact (proj1 HL)|cbn [w_scratch]; rewrite <- Es; exact (proj2 HL)]|]. split; [reflexivity|]. cbn [w_bytes w_floats w_scratch]. split; [exact HB|]. rewrite set_buf_eq. split; [|split; [exists s; split; [reflexivity|assumption]|]].
    + intros b Hne. rewrite set_buf_neq by exact Hne. apply HF. exact Hne.
    + exists (done ++ [i]). split; [rewrite <- app_assoc; exact Ed|]. split; [|split].
      * intros j. destruct (Z.eqb_spec j (snd (x_c x) + i)) as [->|]; [|apply Hal]. split; [|discriminate]. intros _.
        apply Hal. rewrite Eo. discriminate.
      * intros r' k' Hr' Hk' Hi. unfold c_pos. destruct (Z.eqb_spec (snd (x_c x) + position (x_tc x) (x_ldc x) r' k') (snd (x_c x) + i)) as [E|E].
        -- assert (Eq : position (x_tc x) (x_ldc x) r' k' = position (x_tc x) (x_ldc x) r k) by lia.
           apply position_inj in Eq; try assumption; [|apply (ao_ldc _ _ _ _ Ho)]. destruct Eq as [-> ->]. reflexivity.
        -- apply (Hdone r' k' Hr' Hk'). apply in_app_or in Hi as [Hi|[Hi|[]]]; [exact Hi|]. exfalso. apply E. rewrite Hi. reflexivity.
      * intros a Hi. destruct (Z.eqb_spec a (snd (x_c x) + i)) as [->|E].
        -- exfalso. apply Hi. apply in_or_app. right. left. lia.
        -- apply Hrest. intros Hd. apply Hi. apply in_or_app. left. exact Hd.
  - (* end of the conversions *)
    destruct HI as (-> & HB & HF & _ & done & Ed & Hal & Hdone & Hrest). rewrite app_nil_r in Ed. subst done. injection Ep' as <- <-.
    split; [exact HL|]. cbn [effect client bytes floats]. split; [|split].
    + split.
      * intros r k Hr Hk. apply Hdone; [exact Hr|exact Hk|]. apply conv_list_In. exists r, k. auto.
      * intros i Hi. apply Hrest. intros Hin. apply conv_list_In in Hin as (r & k & Hr & Hk & E). apply (Hi r k Hr Hk). unfold c_pos. lia.
    + intros b i Hne. rewrite HF by exact Hne. reflexivity.
    + rewrite HB. reflexivity.
  - destruct HI as [<- HM]. injection Ep' as <- <-. destruct (client_eq _ _ HM) as [HB HF]. split; [|cbn; rewrite HB, HF; split; reflexivity].
    split; [cbn; intros k [= <-]; exact Hc|exact (proj2 HL)].
  - destruct HI as [<- HM]. injection Ep' as <- <-. destruct (client_eq _ _ HM) as [HB HF]. split; [|cbn; rewrite HB, HF; split; reflexivity].
    split; cbn; discriminate.
Qed.

(* the thread holding the lock can always go on *)
Lemma body_progress c M w q : body_inv c M w q -> q = PReturn \/ exists w' q', body_step e (w, q) (w', q').
Proof.
  intros [HL HI]. destruct q as [c'|x sc|x sc|c' s|x sc l| |].
  - right. destruct c' as [x off mult shift|x sc|n|].
    + pose proof (bs_u8 e w x off mult shift (mk_scratch (fun _ => 0) (fun _ => 0) (fun _ => 0) (fun _ => 0) (fun _ => 0) (fun _ => 0) (fun _ => 0))
        (fun _ _ => mk_scratch (fun _ => 0) (fun _ => 0) (fun _ => 0) (fun _ => 0) (fun _ => 0) (fun _ => 0) (fun _ => 0))) as X.
      match type of X with body_step _ _ ?p => destruct p as [w' q'] end. exists w', q'. exact X.
    + eexists _, _. apply bs_f32.
    + eexists _, _. apply bs_set.
    + eexists _, _. apply bs_free.
  - right. pose proof (bs_scratch e w x sc 0 (fun _ => 0)) as X. match type of X with body_step _ _ ?p => destruct p as [w' q'] end. exists w', q'. exact X.
  - right. pose proof (bs_gemm e w x sc (mk_scratch (fun _ => 0) (fun _ => 0) (fun _ => 0) (fun _ => 0) (fun _ => 0) (fun _ => 0) (fun _ => 0))
        (fun _ _ => mk_scratch (fun _ => 0) (fun _ => 0) (fun _ => 0) (fun _ => 0) (fun _ => 0) (fun _ => 0) (fun _ => 0))) as X.
    match type of X with body_step _ _ ?p => destruct p as [w' q'] end. exists w', q'. exact X.
  - right. destruct s as [|ph phs]; [eexists _, _; apply bs_stored|].
    assert (D : (forall l, In l ph -> l = []) \/ exists ls1 a v l ls2, ph = ls1 ++ ((a, v) :: l) :: ls2).
    { clear. induction ph as [|l t IH]; [left; contradiction|]. destruct l as [|[a v] l].
      - destruct IH as [IH|(ls1 & a & v & l & ls2 & ->)]; [left; intros l [<-|H]; auto|right]. exists ([] :: ls1), a, v, l, ls2. reflexivity.
      - right. exists [], a, v, l, t. reflexivity. }
    destruct D as [D|(ls1 & a & v & l & ls2 & ->)]; [eexists _, _; apply bs_phase; exact D|].
    pose proof (bs_store e w c' ls1 a v l ls2 phs) as X. match type of X with body_step _ _ ?p => destruct p as [w' q'] end. exists w', q'. exact X.
  - right. destruct l as [|i l]; [eexists _, _; apply bs_converted|].
    pose proof (bs_convert e w x sc i l) as X. match type of X with body_step _ _ ?p => destruct p as [w' q'] end. exists w', q'. exact X.
  - left. reflexivity.
  - contradiction.
Qed.

Lemma body_changes c M w q : body_inv c M w q -> changes_only c M (client w).
Proof.
  intros [_ HI]. destruct q as [c'|x sc|x sc|c' s|x sc l| |].
  - destruct HI as [_ <-]. split; left; reflexivity.
  - destruct HI as (_ & <- & _). split; left; reflexivity.
  - destruct HI as (_ & <- & _). split; left; reflexivity.
  - destruct HI as [_ HI]. destruct c as [x off mult shift|x sc|n|]; try contradiction.
    + destruct HI as (HF & HB & Hout & _). split; cbn [client bytes floats]; [|rewrite HF; left; reflexivity].
      intros b i. destruct (Nat.eq_dec b (fst (x_c x))) as [->|Hne]; [|left; rewrite HB by exact Hne; reflexivity].
      destruct (view_dec x i) as [(r & k & Hr & Hk & E)|Hn].
      * right. exists x, off, mult, shift, r, k. auto.
      * left. apply Hout. intros (r & k & Hr & Hk & E). apply (Hn r k); assumption.
    + destruct HI as (<- & _). split; left; reflexivity.
  - destruct HI as (-> & HB & HF & _ & done & Ed & _ & _ & Hrest). split; cbn [client bytes floats]; [rewrite HB; left; reflexivity|].
    intros b i. destruct (Nat.eq_dec b (fst (x_c x))) as [->|Hne]; [|left; rewrite HF by exact Hne; reflexivity].
    destruct (view_dec x i) as [(r & k & Hr & Hk & E)|Hn].
    + right. exists x, sc, r, k. auto.
    + left. apply Hrest. intros Hd. assert (Hin : In (i - snd (x_c x)) (conv_list x)) by (rewrite <- Ed; apply in_or_app; left; exact Hd).
      apply conv_list_In in Hin as (r & k & Hr & Hk & E). apply (Hn r k Hr Hk). unfold c_pos. lia.
  - destruct c as [x off mult shift|x sc|n|]; cbn [effect] in HI.
    + destruct HI as (HU & HB & HF). split; cbn [client bytes floats] in *; [|left; apply HF].
      intros b i. destruct (Nat.eq_dec b (fst (x_c x))) as [->|Hne]; [|left; apply HB; exact Hne].
      destruct (x_k x =? 0); [left; apply HU|]. destruct (view_dec x i) as [(r & k & Hr & Hk & E)|Hn].
      * right. exists x, off, mult, shift, r, k. auto.
      * left. apply (proj2 HU). exact Hn.
    + destruct HI as (HU & HF & HB). split; cbn [client bytes floats] in *; [left; apply HB|].
      intros b i. destruct (Nat.eq_dec b (fst (x_c x))) as [->|Hne]; [|left; apply HF; exact Hne].
      destruct (view_dec x i) as [(r & k & Hr & Hk & E)|Hn].
      * right. exists x, sc, r, k. auto.
      * left. apply (proj2 HU). exact Hn.
    + destruct HI as [A B]. split; left; [apply A|apply B].
    + destruct HI as [A B]. split; left; [apply A|apply B].
  - contradiction.
Qed.
End Call.
