(* X86Loop.v: the loops shared by the x86 kernels.  Section hypotheses are proved
   for each program in X86Sse.v and X86Avx.v by executing its blocks. *)
From Verif Require Import Base BaseLemmas SimdModel SimdProofs X86Model X86Proofs.

Lemma xsteps_app k1 k2 n lhs rhs prog pc s pc' s' : xsteps k1 n lhs rhs prog pc s = Some (pc', s') ->
  xsteps (k1 + k2) n lhs rhs prog pc s = xsteps k2 n lhs rhs prog pc' s'.
Proof.
  revert pc s. induction k1 as [|k IH]; intros pc s H.
  - cbn [xsteps] in H. injection H as -> ->. reflexivity.
  - cbn [Nat.add xsteps] in *. destruct (nth_error prog pc); [|discriminate].
    destruct (xstep n lhs rhs x pc s) as [ps|]; [|discriminate]. cbn [bind] in *. now apply IH.
Qed.

Lemma half_div a j : (2 * a + j mod 2) / 2 = a.
Proof. pose proof (Z.mod_pos_bound j 2). symmetry. apply (Z.div_unique _ _ _ (j mod 2)); lia. Qed.
Lemma half_mod a j : (2 * a + j mod 2) mod 2 = j mod 2.
Proof. pose proof (Z.mod_pos_bound j 2). symmetry. apply (Z.mod_unique _ _ a); lia. Qed.
Section Data.
Variables (n : nat) (C : Z) (lhs rhs : mem) (lp0 rp0 P : Z) (A B : Z -> Z -> Z).
Notation N := (Z.of_nat n).
Hypothesis Hn : 1 <= N.
Hypothesis HC : 1 <= C.
(* width-major cells of depth 2 *)
Hypothesis HL : forall w d, 0 <= w < C * N -> 0 <= d < P ->
  lhs (lp0 + ((d / 2 * C + w / N) * (N * 2) + (d mod 2 + w mod N * 2))) = Some (A w d) /\ 0 <= A w d < 256.
Hypothesis HR : forall c d, 0 <= c < 4 -> 0 <= d < P ->
  rhs (rp0 + (d / 2 * 8 + (d mod 2 + c * 2))) = Some (B c d) /\ 0 <= B c d < 256.

Definition cellL (dc rc j : Z) : Z := A (N * rc + j / 2) (2 * dc + j mod 2).
Definition cellR (dc j : Z) : Z := B (j / 2) (2 * dc + j mod 2).
Lemma cellL_ok dc rc j : 0 <= dc -> 2 * dc + 2 <= P -> 0 <= rc < C -> 0 <= j < 2 * N ->
  lhs (lp0 + (dc * C + rc) * (2 * N) + j) = Some (cellL dc rc j) /\ 0 <= cellL dc rc j < 256.
Proof.
  intros Hd HP Hrc Hj. unfold cellL.
  assert (Q : 0 <= j / 2 < N) by lia.
  destruct (HL (N * rc + j / 2) (2 * dc + j mod 2) ltac:(nia) ltac:(lia)) as [E B1]. split; [|exact B1].
  rewrite <- E. f_equal.
  rewrite half_div, half_mod.
  replace ((N * rc + j / 2) / N) with rc by (apply (Z.div_unique _ _ _ (j / 2)); lia).
  replace ((N * rc + j / 2) mod N) with (j / 2) by (apply (Z.mod_unique _ _ rc); lia).
  pose proof (Z.div_mod j 2). nia.
Qed.
Lemma cellR_ok dc j : 0 <= dc -> 2 * dc + 2 <= P -> 0 <= j < 8 ->
  rhs (rp0 + dc * 8 + j) = Some (cellR dc j) /\ 0 <= cellR dc j < 256.
Proof.
  intros Hd HP Hj. unfold cellR.
  destruct (HR (j / 2) (2 * dc + j mod 2) ltac:(lia) ltac:(lia)) as [E B1]. split; [|exact B1].
  rewrite <- E. f_equal. rewrite half_div, half_mod. lia.
Qed.

Definition acc_ok (acc : Z -> Z -> reg) (D : Z) : Prop :=
  forall rc c i, 0 <= rc < C -> 0 <= c < 4 -> 0 <= i < N ->
    get 32 i (acc rc c) = wrapS 32 (sumZ (fun d => A (N * rc + i) d * B c d) 0 D).
Definition acc_next (dc : Z) (R : reg) (acc : Z -> Z -> reg) (rc c : Z) : reg :=
  mac n c (wide n (cellL dc rc)) R (acc rc c).
Lemma acc_ok_next acc dc R : 0 <= dc -> 2 * dc + 2 <= P -> rhs_words n R (cellR dc) ->
  acc_ok acc (2 * dc) -> acc_ok (acc_next dc R acc) (2 * (dc + 1)).
Proof.
  intros Hd HP HW H rc c i Hrc Hc Hi. unfold acc_next.
  rewrite (g_mac n c (cellL dc rc) R (cellR dc)); [|lia|lia| |exact HW].
  2:{ intros j Hj. now apply cellL_ok. }
  rewrite (H rc c i Hrc Hc Hi). rewrite wrapS_add_r by lia. f_equal.
  replace (2 * (dc + 1)) with (2 * dc + 1 + 1) by lia. rewrite !sumZ_last by lia.
  unfold cellL, cellR.
  replace (2 * i / 2) with i by lia. replace ((2 * i) mod 2) with 0 by lia.
  replace ((2 * i + 1) / 2) with i by lia. replace ((2 * i + 1) mod 2) with 1 by lia.
  replace (2 * c / 2) with c by lia. replace ((2 * c) mod 2) with 0 by lia.
  replace ((2 * c + 1) / 2) with c by lia. replace ((2 * c + 1) mod 2) with 1 by lia.
  rewrite !Z.add_0_r. lia.
Qed.
Lemma acc_ok_zero acc : (forall rc c, exists x, acc rc c = v_xor x x) -> acc_ok acc 0.
Proof.
  intros H rc c i _ _ _. destruct (H rc c) as [x ->]. unfold v_xor. rewrite Z.lxor_nilpotent.
  unfold get. rewrite Z.shiftr_0_l. rewrite sumZ_empty by lia. reflexivity.
Qed.

(* ------------------------------------------------------------------ *)
(* control: state with accumulators acc after dc cells, counter m *)
Variables (prog : list xop) (pc1 pc2 pcA pcF k0 k1 k2 kA : nat).
Variable rel : (Z -> Z -> reg) -> Z -> Z -> xstate -> Prop.
Hypothesis B2 : forall acc dc m s, rel acc dc m s -> 0 <= dc -> 2 * dc + 4 <= P ->
  exists s' R0 R1, rhs_words n R0 (cellR dc) /\ rhs_words n R1 (cellR (dc + 1)) /\
    xsteps k2 n lhs rhs prog pc2 s =
      Some (if negb ((0 <=? m) && (m <? 2)) && negb (m - 2 =? 0) then pc2 else pcA, s') /\
    rel (acc_next (dc + 1) R1 (acc_next dc R0 acc)) (dc + 2) (m - 2) s'.
Hypothesis B1 : forall acc dc m s, rel acc dc m s -> 0 <= dc -> 2 * dc + 2 <= P ->
  exists s' R0, rhs_words n R0 (cellR dc) /\
    xsteps k1 n lhs rhs prog pc1 s = Some (if negb (m - 1 =? 0) then pc1 else pcF, s') /\
    rel (acc_next dc R0 acc) (dc + 1) (m - 1) s'.
Hypothesis BA : forall acc dc m s, rel acc dc m s -> m <= 0 ->
  exists s', xsteps kA n lhs rhs prog pcA s = Some (pcF, s') /\ rel acc dc m s'.

Lemma loop2_ok q : forall acc dc m s, rel acc dc m s -> 1 <= m -> Z.of_nat q = (m + 1) / 2 ->
  0 <= dc -> 2 * dc + 4 * Z.of_nat q <= P -> acc_ok acc (2 * dc) ->
  exists acc' m' s', xsteps (q * k2) n lhs rhs prog pc2 s = Some (pcA, s') /\
    rel acc' (dc + 2 * Z.of_nat q) m' s' /\ m' <= 0 /\ acc_ok acc' (2 * dc + 4 * Z.of_nat q).
Proof.
  clear B1 BA. induction q as [|q IH]; intros acc dc m s Hr Hm Hq Hd HP Hacc; [lia|].
  destruct (B2 acc dc m s Hr Hd ltac:(lia)) as (s1 & R0 & R1 & W0 & W1 & E & Hr1).
  pose proof (acc_ok_next acc dc R0 Hd ltac:(lia) W0 Hacc) as A1.
  pose proof (acc_ok_next _ (dc + 1) R1 ltac:(lia) ltac:(lia) W1 A1) as A2.
  replace (dc + 1 + 1) with (dc + 2) in A2 by lia.
  destruct (Z_le_gt_dec m 2) as [L | G].
  - assert (q = O) by lia. subst q. exists (acc_next (dc + 1) R1 (acc_next dc R0 acc)), (m - 2), s1.
    replace (1 * k2)%nat with k2 by lia.
    replace (negb ((0 <=? m) && (m <? 2)) && negb (m - 2 =? 0)) with false in E by lia.
    split; [exact E|]. replace (dc + 2 * Z.of_nat 1) with (dc + 2) by lia. split; [exact Hr1|]. split; [lia|].
    replace (2 * dc + 4 * Z.of_nat 1) with (2 * (dc + 2)) by lia. exact A2.
  - replace (negb ((0 <=? m) && (m <? 2)) && negb (m - 2 =? 0)) with true in E by lia.
    destruct (IH _ (dc + 2) (m - 2) s1 Hr1 ltac:(lia) ltac:(lia) ltac:(lia) ltac:(lia) A2) as (acc' & m' & s' & E' & Hr' & Hm' & A').
    exists acc', m', s'. split.
    + replace (S q * k2)%nat with (k2 + q * k2)%nat by lia. rewrite (xsteps_app _ _ _ _ _ _ _ _ _ _ E). exact E'.
    + replace (dc + 2 * Z.of_nat (S q)) with (dc + 2 + 2 * Z.of_nat q) by lia. split; [exact Hr'|]. split; [exact Hm'|].
      replace (2 * dc + 4 * Z.of_nat (S q)) with (2 * (dc + 2) + 4 * Z.of_nat q) by lia. exact A'.
Qed.

(* levels of depth processed for m cells *)
Definition levels (m : Z) : Z := if m =? 1 then 2 else 4 * ((m + 1) / 2).
Lemma loops_ok acc m s0 s : 1 <= m -> levels m <= P ->
  xsteps k0 n lhs rhs prog 0 s0 = Some (if m - 2 <? 0 then pc1 else pc2, s) ->
  rel acc 0 m s -> (forall rc c, exists x, acc rc c = v_xor x x) ->
  exists acc' dc m' s', xsteps (k0 + (if m =? 1 then k1 else Z.to_nat ((m + 1) / 2) * k2 + kA)) n lhs rhs prog 0 s0 = Some (pcF, s') /\
    rel acc' dc m' s' /\ acc_ok acc' (levels m).
Proof.
  intros Hm HP E0 Hr HA. pose proof (acc_ok_zero acc HA) as A0. unfold levels in *.
  destruct (m =? 1) eqn:Em.
  - assert (m = 1) by lia. subst m.
    destruct (B1 acc 0 1 s Hr ltac:(lia) ltac:(lia)) as (s1 & R0 & W0 & E & Hr1).
    change (negb (1 - 1 =? 0)) with false in E. change (1 - 2 <? 0) with true in E0.
    exists (acc_next 0 R0 acc), 1, 0, s1. split; [|split; [exact Hr1|]].
    + rewrite (xsteps_app _ _ _ _ _ _ _ _ _ _ E0). exact E.
    + change 2 with (2 * (0 + 1)). apply acc_ok_next; try lia; try exact W0. exact A0.
  - replace (m - 2 <? 0) with false in E0 by lia.
    destruct (loop2_ok (Z.to_nat ((m + 1) / 2)) acc 0 m s Hr Hm ltac:(lia) ltac:(lia) ltac:(lia) A0)
      as (acc' & m' & s' & E & Hr' & Hm' & A').
    destruct (BA _ _ _ _ Hr' Hm') as (s2 & E2 & Hr2).
    exists acc', (0 + 2 * Z.of_nat (Z.to_nat ((m + 1) / 2))), m', s2. split; [|split; [exact Hr2|]].
    + rewrite (xsteps_app _ _ _ _ _ _ _ _ _ _ E0). rewrite (xsteps_app _ _ _ _ _ _ _ _ _ _ E). exact E2.
    + replace (4 * ((m + 1) / 2)) with (2 * 0 + 4 * Z.of_nat (Z.to_nat ((m + 1) / 2))) by lia. exact A'.
Qed.
End Data.

(* ------------------------------------------------------------------ *)
(* a sequence of stores *)
Lemma store_cells_ok l : forall m a, (forall j, 0 <= j < Z.of_nat (length l) -> m (a + j) <> None) ->
  exists m', store_cells m a l = Some m' /\
    forall x, m' x = if (a <=? x) && (x <? a + Z.of_nat (length l)) then Some (nth (Z.to_nat (x - a)) l 0) else m x.
Proof.
  induction l as [|v l IH]; intros m a H.
  - exists m. split; [reflexivity|]. intros x. cbn [length]. replace ((a <=? x) && (x <? a + Z.of_nat 0)) with false by lia. reflexivity.
  - cbn [store_cells length]. unfold wr.
    pose proof (H 0 ltac:(cbn [length]; lia)) as H0. rewrite Z.add_0_r in H0.
    destruct (m a) as [v0|] eqn:Ea; [|congruence]. cbn [bind].
    destruct (IH (upd m a v) (a + 1)) as (m' & E & Hm').
    + intros j Hj. unfold upd. replace (a + 1 + j =? a) with false by lia.
      replace (a + 1 + j) with (a + (j + 1)) by lia. apply H. cbn [length]. lia.
    + exists m'. split; [exact E|]. intros x. rewrite Hm'. unfold upd.
      destruct (Z.eq_dec x a) as [-> | Nx].
      * replace ((a + 1 <=? a) && _) with false by lia. rewrite Z.eqb_refl.
        replace ((a <=? a) && (a <? a + Z.of_nat (S (length l)))) with true by lia. now rewrite Z.sub_diag.
      * replace (x =? a) with false by lia.
        destruct ((a + 1 <=? x) && (x <? a + 1 + Z.of_nat (length l))) eqn:B.
        -- replace ((a <=? x) && (x <? a + Z.of_nat (S (length l)))) with true by lia.
           replace (Z.to_nat (x - a)) with (S (Z.to_nat (x - (a + 1)))) by lia. reflexivity.
        -- replace ((a <=? x) && (x <? a + Z.of_nat (S (length l)))) with false by lia. reflexivity.
Qed.
Lemma v_store_ok n m a v : (forall j, 0 <= j < Z.of_nat n -> m (a + j) <> None) ->
  v_store n m (4 * a) v <> None /\
  forall x, t_store n m (4 * a) v x = if (a <=? x) && (x <? a + Z.of_nat n) then Some (get 32 (x - a) v) else m x.
Proof.
  intros H. unfold t_store, v_store. replace ((4 * a) mod 4 =? 0) with true by lia. cbn [guard bind].
  replace (4 * a / 4) with a by lia.
  destruct (store_cells_ok (map (fun i => get 32 (Z.of_nat i) v) (seq 0 n)) m a) as (m' & E & Hm').
  { rewrite map_length, seq_length. exact H. }
  rewrite E. split; [discriminate|]. intros x. rewrite Hm'. rewrite map_length, seq_length.
  destruct ((a <=? x) && (x <? a + Z.of_nat n)) eqn:Bx; [|reflexivity].
  rewrite (nth_map_seq (fun i => get 32 i v)) by lia. reflexivity.
Qed.
Fixpoint storesT (n : nat) (m : mem) (l : list (Z * reg)) : mem :=
  match l with [] => m | (a, v) :: r => storesT n (t_store n m a v) r end.
Fixpoint store_obls (n : nat) (m : mem) (l : list (Z * reg)) : list Prop :=
  match l with [] => [] | (a, v) :: r => (v_store n m a v <> None) :: store_obls n (t_store n m a v) r end.
(* cells of different entries of the list are different *)
Definition apart (n : nat) (a b : Z) : Prop :=
  forall i j, 0 <= i < Z.of_nat n -> 0 <= j < Z.of_nat n -> a + i <> b + j.
Lemma stores_ok n l : forall m,
  (forall a v j, In (a, v) l -> 0 <= j < Z.of_nat n -> m (a + j) <> None) ->
  ForallOrdPairs (fun p q => apart n (fst p) (fst q)) l ->
  all_of (store_obls n m (map (fun p => (4 * fst p, snd p)) l)) /\
  (forall a v j, In (a, v) l -> 0 <= j < Z.of_nat n ->
     storesT n m (map (fun p => (4 * fst p, snd p)) l) (a + j) = Some (get 32 j v)) /\
  (forall x, (forall a v j, In (a, v) l -> 0 <= j < Z.of_nat n -> x <> a + j) ->
     storesT n m (map (fun p => (4 * fst p, snd p)) l) x = m x).
Proof.
  induction l as [|[a v] l IH]; intros m Hal Hap.
  - cbn. repeat split; try tauto.
  - cbn [map fst snd store_obls storesT all_of].
    destruct (v_store_ok n m a v) as [S1 S2]. { intros j Hj. apply (Hal a v j); [now left|exact Hj]. }
    inversion Hap as [|? ? F1 F2]; subst.
    destruct (IH (t_store n m (4 * a) v)) as (I1 & I2 & I3); [| exact F2 |].
    { intros b u j Hin Hj. rewrite S2. destruct ((a <=? b + j) && (b + j <? a + Z.of_nat n)); [discriminate|].
      apply (Hal b u j); [now right|exact Hj]. }
    split; [split; [exact S1|exact I1]|]. split.
    + intros b u j [Hin | Hin] Hj.
      * injection Hin as <- <-. rewrite I3.
        -- rewrite S2. replace ((a <=? a + j) && (a + j <? a + Z.of_nat n)) with true by lia. do 2 f_equal. lia.
        -- intros b u j' Hin Hj'. rewrite Forall_forall in F1. exact (F1 _ Hin j j' Hj Hj').
      * now apply (I2 b u j).
    + intros x Hx. rewrite I3.
      * rewrite S2. destruct ((a <=? x) && (x <? a + Z.of_nat n)) eqn:Bx; [|reflexivity].
        exfalso. apply (Hx a v (x - a)); [now left|lia|lia].
      * intros b u j Hin Hj. apply (Hx b u j); [now right|exact Hj].
Qed.
(* a load of n cells *)
Lemma t_load_ok n m a f : (forall j, 0 <= j < Z.of_nat n -> m (a + j) = Some (f j)) ->
  v_load n m (4 * a) <> None /\ forall i, 0 <= i < Z.of_nat n -> get 32 i (t_load n m (4 * a)) = wrapS 32 (f i).
Proof.
  intros H. unfold t_load, v_load. replace ((4 * a) mod 4 =? 0) with true by lia. cbn [guard bind].
  replace (4 * a / 4) with a by lia. rewrite (load_cells_ok m a n f H). cbn [bind]. split; [discriminate|].
  intros i Hi. unfold vec_of. rewrite get_vpack by lia. now rewrite nth_map_seq.
Qed.

(* ------------------------------------------------------------------ *)
(* the accumulators of 4 columns of C cells, in the order they are stored *)
Section Finish.
Variables (n : nat) (C dst cs : Z) (res : mem) (old : Z -> Z -> Z).
Notation N := (Z.of_nat n).
Hypothesis Hn : 1 <= N.
Hypothesis HC : 1 <= C.
Hypothesis Hinj : forall r c r' c', 0 <= r < C * N -> 0 <= c < 4 -> 0 <= r' < C * N -> 0 <= c' < 4 ->
  r * 1 + c * cs = r' * 1 + c' * cs -> r = r' /\ c = c'.
Hypothesis Hold : forall r c, 0 <= r < C * N -> 0 <= c < 4 -> res (dst + (r * 1 + c * cs)) = Some (old r c).
Variable qs : list (Z * Z).    (* (column, cell) *)
Hypothesis Hqs : NoDup qs /\ forall c rc, In (c, rc) qs <-> 0 <= c < 4 /\ 0 <= rc < C.

Definition store_list (F : Z -> Z -> reg) : list (Z * reg) :=
  map (fun q => (dst + (N * snd q + fst q * cs), F (snd q) (fst q))) qs.
Lemma row_split r : 0 <= r < C * N -> 0 <= r / N < C /\ 0 <= r mod N < N /\ r = N * (r / N) + r mod N.
Proof.
  intros H. pose proof (Z.mod_pos_bound r N ltac:(lia)). pose proof (Z.div_mod r N ltac:(lia)).
  split; [|split; [lia|lia]]. split; [apply Z.div_pos; lia|]. apply Z.div_lt_upper_bound; lia.
Qed.
Lemma stores_finish F :
  all_of (store_obls n res (map (fun p => (4 * fst p, snd p)) (store_list F))) /\
  (forall r c, 0 <= r < C * N -> 0 <= c < 4 ->
     storesT n res (map (fun p => (4 * fst p, snd p)) (store_list F)) (dst + (r * 1 + c * cs)) = Some (get 32 (r mod N) (F (r / N) c))) /\
  (forall a, (forall r c, 0 <= r < C * N -> 0 <= c < 4 -> a <> dst + (r * 1 + c * cs)) ->
     storesT n res (map (fun p => (4 * fst p, snd p)) (store_list F)) a = res a).
Proof.
  destruct Hqs as [ND IN].
  assert (Hal : forall a v j, In (a, v) (store_list F) -> 0 <= j < N ->
    exists rc c, 0 <= rc < C /\ 0 <= c < 4 /\ a + j = dst + ((N * rc + j) * 1 + c * cs) /\ 0 <= N * rc + j < C * N).
  { intros a v j Hin Hj. unfold store_list in Hin. apply in_map_iff in Hin. destruct Hin as ([c rc] & E & Hin).
    cbn [fst snd] in E. injection E as <- <-. apply IN in Hin. exists rc, c. repeat split; try lia; nia. }
  destruct (stores_ok n (store_list F) res) as (S1 & S2 & S3).
  - intros a v j Hin Hj. destruct (Hal a v j Hin Hj) as (rc & c & H1 & H2 & -> & H3). rewrite Hold by assumption. discriminate.
  - unfold store_list. clear S1 S2 S3 || idtac.
    assert (G : forall l, NoDup l -> (forall q, In q l -> In q qs) ->
      ForallOrdPairs (fun p q : Z * reg => apart n (fst p) (fst q)) (map (fun q => (dst + (N * snd q + fst q * cs), F (snd q) (fst q))) l)).
    { induction l as [|[c rc] l IH]; intros NDl Hl; [constructor|]. cbn [map]. inversion NDl; subst. constructor.
      - apply Forall_forall. intros p Hp. apply in_map_iff in Hp. destruct Hp as ([c' rc'] & <- & Hp).
        intros i j Hi Hj. cbn [fst snd]. intros E.
        destruct (proj1 (IN c rc) (Hl _ (or_introl eq_refl))) as [Hc Hrc].
        destruct (proj1 (IN c' rc') (Hl _ (or_intror Hp))) as [Hc' Hrc'].
        destruct (Hinj (N * rc + i) c (N * rc' + j) c') as [E1 E2]; try lia; try nia.
        subst c'. assert (rc = rc') by nia. subst rc'. contradiction.
      - apply IH; [assumption|]. intros q Hq. apply Hl. now right. }
    apply G; [exact ND|tauto].
  - split; [exact S1|]. split.
    + intros r c Hr Hc. destruct (row_split r Hr) as (Q1 & Q2 & Q3).
      rewrite <- (S2 (dst + (N * (r / N) + c * cs)) (F (r / N) c) (r mod N)).
      * f_equal. lia.
      * unfold store_list. apply in_map_iff. exists (c, r / N). split; [reflexivity|]. apply IN. lia.
      * lia.
    + intros a Ha. apply S3. intros b v j Hin Hj E. destruct (Hal b v j Hin Hj) as (rc & c & H1 & H2 & H3 & H4).
      apply (Ha (N * rc + j) c H4 H2). lia.
Qed.
Lemma load_finish rc c : 0 <= rc < C -> 0 <= c < 4 ->
  v_load n res (4 * (dst + (N * rc + c * cs))) <> None /\
  forall i, 0 <= i < N -> get 32 i (t_load n res (4 * (dst + (N * rc + c * cs)))) = wrapS 32 (old (N * rc + i) c).
Proof.
  intros Hrc Hc. apply (t_load_ok n res _ (fun j => old (N * rc + j) c)). intros j Hj.
  rewrite <- Hold by (try lia; nia). f_equal. lia.
Qed.
End Finish.
