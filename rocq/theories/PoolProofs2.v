From Coq Require Import List Arith Bool Lia.
Import ListNotations.
From Verif Require Import GemmContract PoolModel PoolSpec PoolProofs.
Local Open Scope nat_scope.

Section Proofs.
Context {A : Type}.
Notation worker := (@worker A).
Notation state := (@state A).
Notation wok := (@wok A).

Ltac wcases w :=
  let st := fresh "st" in let tk := fresh "tk" in let ow := fresh "ow" in let pc := fresh "pc" in
  destruct w as [st tk ow pc]; unfold PoolProofs.wok, idle, p1, is_pending, wrem, wake, set_owner, set_task, set_state, set_pc in *;
  cbn [w_state w_task w_owner w_pc held] in *;
  repeat match goal with H : _ /\ _ |- _ => destruct H end; subst; cbn in *;
  try (destruct pc); try (destruct st); cbn in *; try contradiction; try discriminate;
  repeat match goal with H : _ /\ _ |- _ => destruct H end; subst; cbn in *; try contradiction; try discriminate;
  try (match goal with H : true = true -> _ |- _ => specialize (H eq_refl); discriminate end);
  repeat apply conj; intros; try discriminate; try congruence; try tauto; auto.

Lemma cs_lock k (w : worker) : wok w None -> idle w -> w_owner w = None ->
  wok (set_owner w (Some OCaller)) (Some (k, CCheck)) /\ idle (set_owner w (Some OCaller)) /\
  p1 (set_owner w (Some OCaller)) = p1 w /\ wrem (set_owner w (Some OCaller)) = wrem w.
Proof. intros H1 H2 H3. destruct k; wcases w. Qed.
Lemma cs_check_give (w : worker) t : wok w (Some (false, CCheck)) ->
  w_state w = Ready /\ w_task w = None /\ wok (set_task w (Some t)) (Some (false, CStore)) /\ (idle w -> idle (set_task w (Some t))) /\
  p1 (set_task w (Some t)) = p1 w /\ wrem (set_task w (Some t)) = t.
Proof. intros H1. wcases w. Qed.
Lemma cs_check_del (w : worker) : wok w (Some (true, CCheck)) -> w_state w = Ready /\ wok w (Some (true, CStore)).
Proof. intros H1. wcases w. Qed.
Lemma cs_store k (w : worker) : wok w (Some (k, CStore)) ->
  let w' := set_state w (if k then ExitAsSoonAsPossible else HasWork) in
  wok w' (Some (k, CBroadcast)) /\ p1 w = 0 /\ p1 w' = (if k then 0 else 1) /\ wrem w' = wrem w.
Proof. intros H1. cbv zeta. destruct k; wcases w. Qed.
Lemma cs_broadcast k (w : worker) : wok w (Some (k, CBroadcast)) ->
  wok (wake w) (Some (k, CUnlock)) /\ p1 (wake w) = p1 w /\ wrem (wake w) = wrem w /\ w_state (wake w) = w_state w.
Proof. intros H1. destruct k; wcases w. Qed.
Lemma cs_unlock k (w : worker) : wok w (Some (k, CUnlock)) ->
  wok (set_owner w None) None /\ p1 (set_owner w None) = p1 w /\ wrem (set_owner w None) = wrem w.
Proof. intros H1. destruct k; wcases w. Qed.
Lemma spurious_ok (w : worker) v : wok w v -> w_pc w = WSleep ->
  let w' := set_pc w WWake in
  wok w' v /\ p1 w' = p1 w /\ wrem w' = wrem w /\ (idle w -> idle w') /\ w_state w' = w_state w.
Proof. intros H1 H2. cbv zeta. destruct w as [st tk ow pc]; cbn in H2; subst pc. unfold PoolProofs.wok, idle, p1, is_pending, wrem, set_pc in *.
  destruct st; destruct v as [[[] []]|]; cbn in *; intuition congruence. Qed.

Ltac pcl := cbn; repeat apply conj; try lia;
  try match goal with |- _ \/ (?a = ?b /\ _) => destruct (Nat.eq_dec a b); [right; split; [assumption|reflexivity]|left; lia] end.

(* the caller changes worker i and moves on *)
Lemma inv_upd program (s : state) i w w' pc' :
  inv program s -> nth_error (s_workers s) i = Some w ->
  wok w' (view pc' i) -> role pc' (batch_workers s) i w' ->
  (forall j x, j <> i -> nth_error (s_workers s) j = Some x -> role (s_pc s) (batch_workers s) j x ->
     view pc' j = view (s_pc s) j /\ role pc' (batch_workers s) j x) ->
  p1 w' + extra pc' (batch_workers s) (length (s_workers s)) = p1 w + extra (s_pc s) (batch_workers s) (length (s_workers s)) ->
  pc_ok pc' (batch_workers s) (length (s_workers s)) ->
  active pc' = active (s_pc s) ->
  (active (s_pc s) = true -> remaining (with_pc (set_worker s i w') pc') = remaining s) ->
  inv program (with_pc (set_worker s i w') pc').
Proof.
  intros I Hn Hw Hr Ho Hp Hpc Ha Hrem.
  assert (Hlen : length (upd (s_workers s) i w') = length (s_workers s)) by apply length_upd.
  constructor; cbn [with_pc set_worker with_workers s_failed s_workers s_count s_pc s_batch s_todo s_returned s_trace];
    unfold batch_workers; cbn [with_pc set_worker with_workers with_count emit s_batch]; change (length (s_batch s) - 1) with (batch_workers s).
  - apply (iv_fail _ _ I).
  - intros j x Hx. destruct (Nat.eq_dec j i) as [->|Ne].
    + rewrite (nth_upd_same _ _ _ _ Hn) in Hx. injection Hx as <-. auto.
    + rewrite nth_upd_other in Hx by auto. destruct (iv_w _ _ I j x Hx) as [W R]. destruct (Ho j x Ne Hx R) as [V R']. rewrite V. auto.
  - rewrite Hlen. pose proof (pend_upd _ _ _ w' Hn) as X1. pose proof (iv_count _ _ I) as X2. lia.
  - rewrite Hlen. exact Hpc.
  - destruct (iv_prog _ _ I) as (done & D1 & D2 & tr1 & tr2 & T1 & T2 & T3). exists done. rewrite Ha. split; [exact D1|]. split; [exact D2|].
    exists tr1, tr2. split; [exact T1|]. split; [exact T2|]. destruct (active (s_pc s)); [|exact T3].
    specialize (Hrem eq_refl). intros tr3. intros H3. apply T3. rewrite <- Hrem. exact H3.
  - rewrite Ha. apply (iv_batch _ _ I).
Qed.
(* the caller only moves on *)
Lemma inv_pc program (s : state) pc' :
  inv program s ->
  (forall j x, nth_error (s_workers s) j = Some x -> wok x (view (s_pc s) j) -> role (s_pc s) (batch_workers s) j x ->
     wok x (view pc' j) /\ role pc' (batch_workers s) j x) ->
  extra pc' (batch_workers s) (length (s_workers s)) = extra (s_pc s) (batch_workers s) (length (s_workers s)) ->
  pc_ok pc' (batch_workers s) (length (s_workers s)) ->
  active pc' = active (s_pc s) ->
  (active (s_pc s) = true -> remaining (with_pc s pc') = remaining s) ->
  inv program (with_pc s pc').
Proof.
  intros I Ho Hp Hpc Ha Hrem.
  constructor; cbn [with_pc s_failed s_workers s_count s_pc s_batch s_todo s_returned s_trace];
    unfold batch_workers; cbn [with_pc set_worker with_workers with_count emit s_batch]; change (length (s_batch s) - 1) with (batch_workers s).
  - apply (iv_fail _ _ I).
  - intros j x Hx. destruct (iv_w _ _ I j x Hx) as [W R]. apply Ho; assumption.
  - pose proof (iv_count _ _ I). lia.
  - exact Hpc.
  - destruct (iv_prog _ _ I) as (done & D1 & D2 & tr1 & tr2 & T1 & T2 & T3). exists done. rewrite Ha. split; [exact D1|]. split; [exact D2|].
    exists tr1, tr2. split; [exact T1|]. split; [exact T2|]. destruct (active (s_pc s)); [|exact T3].
    specialize (Hrem eq_refl). intros tr3. intros H3. apply T3. rewrite <- Hrem. exact H3.
  - rewrite Ha. apply (iv_batch _ _ I).
Qed.

Lemma view_other_give j c i : i <> j -> view (@MGive A j c) i = None.
Proof. intros H. cbn. destruct (i =? j) eqn:E; [apply Nat.eqb_eq in E; contradiction|reflexivity]. Qed.
Lemma view_other_del j c i : i <> j -> view (@MDel A j c) i = None.
Proof. intros H. cbn. destruct (i =? j) eqn:E; [apply Nat.eqb_eq in E; contradiction|reflexivity]. Qed.
Lemma view_give j c : view (@MGive A j c) j = match c with CLock => None | _ => Some (false, c) end.
Proof. cbn. rewrite Nat.eqb_refl. reflexivity. Qed.
Lemma view_del j c : view (@MDel A j c) j = match c with CLock => None | _ => Some (true, c) end.
Proof. cbn. rewrite Nat.eqb_refl. reflexivity. Qed.

Lemma inv_give program (s s' : state) j c : inv program s -> s_pc s = MGive j c -> j < batch_workers s ->
  change_state_step s j c HasWork (nth_error (s_batch s) j) (MGive j) (MGive (S j) CLock) = Some s' -> inv program s'.
Proof.
  intros I Epc Hj H. pose proof (iv_pc _ _ I) as P. rewrite Epc in P. cbn in P.
  unfold change_state_step in H. destruct (nth_error (s_workers s) j) as [w|] eqn:Hn.
  2:{ apply nth_error_None in Hn. lia. }
  destruct (iv_w _ _ I j w Hn) as [W R]. rewrite Epc, view_give in W. rewrite Epc in R. cbn in R. destruct R as [R1 R2].
  assert (Hid : early c = true -> idle w) by (intros E; apply R2; right; auto).
  pose proof (iv_batch _ _ I) as B. rewrite Epc in B. specialize (B eq_refl).
  destruct c.
  - (* CLock *)
    destruct (w_owner w) eqn:Eo; [discriminate|]. injection H as <-. destruct (cs_lock false w W (Hid eq_refl) Eo) as (C1 & C2 & C3 & C4).
    apply (inv_upd program s j w _ (MGive j CCheck) I Hn); rewrite ?Epc.
    + rewrite view_give. exact C1.
    + split; [right; apply C2|auto].
    + intros k x Hk _ [Q1 Q2]. rewrite !view_other_give by exact Hk. split; [reflexivity|]. split; [exact Q1|]. intros [?|[? _]]; [auto|contradiction].
    + pcl.
    + pcl.
    + reflexivity.
    + intros _. unfold remaining. cbn. rewrite Epc. cbn. rewrite (map_wrem_upd _ _ _ _ _ Hn C4). reflexivity.
  - (* CCheck *)
    assert (Hb : exists t, nth_error (s_batch s) j = Some t).
    { destruct (nth_error (s_batch s) j) as [t|] eqn:E; [eauto|]. apply nth_error_None in E. unfold batch_workers in Hj. lia. }
    destruct Hb as (t & Et). rewrite Et in H.
    destruct (cs_check_give w t W) as (C1 & C2 & C3 & C4 & C5 & C6). rewrite C1, C2 in H. injection H as <-.
    apply (inv_upd program s j w _ (MGive j CStore) I Hn); rewrite ?Epc.
    + rewrite view_give. exact C3.
    + split; [right; apply C4; auto|auto].
    + intros k x Hk _ [Q1 Q2]. rewrite !view_other_give by exact Hk. split; [reflexivity|]. split; [exact Q1|]. intros [?|[? _]]; [auto|contradiction].
    + pcl.
    + pcl.
    + reflexivity.
    + intros _. unfold remaining. rewrite Epc. cbn [with_pc set_worker with_workers s_pc s_workers s_batch handed].
      rewrite (firstn_snoc _ j (set_task w (Some t))) by (apply nth_upd_same with w; exact Hn). rewrite firstn_upd_ge by lia.
      rewrite map_app. cbn [map]. rewrite C6. rewrite (skipn_cons _ _ _ Et), <- app_assoc. reflexivity.
  - (* CStore *)
    injection H as <-. destruct (cs_store false w W) as (C1 & C2 & C3 & C4). cbn [negb] in *.
    apply (inv_upd program s j w _ (MGive j CBroadcast) I Hn); rewrite ?Epc.
    + rewrite view_give. exact C1.
    + split; [left; reflexivity|]. intros [?|[_ ?]]; [lia|discriminate].
    + intros k x Hk _ [Q1 Q2]. rewrite !view_other_give by exact Hk. split; [reflexivity|]. split; [exact Q1|]. intros [?|[? _]]; [auto|contradiction].
    + rewrite C2. rewrite C3. cbn. destruct P as [_ [?|[? ?]]]; [lia|discriminate].
    + destruct P as [? [?|[? ?]]]; [pcl|discriminate].
    + reflexivity.
    + intros _. unfold remaining. rewrite Epc. cbn [with_pc set_worker with_workers s_pc s_workers s_batch handed]. rewrite (map_wrem_upd _ _ _ _ _ Hn C4). reflexivity.
  - (* CBroadcast *)
    injection H as <-. destruct (cs_broadcast false w W) as (C1 & C2 & C3 & C4).
    apply (inv_upd program s j w _ (MGive j CUnlock) I Hn); rewrite ?Epc.
    + rewrite view_give. exact C1.
    + split; [rewrite C4; exact R1|]. intros [?|[_ ?]]; [lia|discriminate].
    + intros k x Hk _ [Q1 Q2]. rewrite !view_other_give by exact Hk. split; [reflexivity|]. split; [exact Q1|]. intros [?|[? _]]; [auto|contradiction].
    + rewrite C2. reflexivity.
    + destruct P as [? [?|[? ?]]]; [pcl|discriminate].
    + reflexivity.
    + intros _. unfold remaining. rewrite Epc. cbn [with_pc set_worker with_workers s_pc s_workers s_batch handed]. rewrite (map_wrem_upd _ _ _ _ _ Hn C3). reflexivity.
  - (* CUnlock *)
    injection H as <-. destruct (cs_unlock false w W) as (C1 & C2 & C3).
    apply (inv_upd program s j w _ (MGive (S j) CLock) I Hn); rewrite ?Epc.
    + rewrite view_other_give by lia. exact C1.
    + split; [exact R1|]. intros [?|[? _]]; lia.
    + intros k x Hk _ [Q1 Q2]. rewrite (view_other_give j) by exact Hk. split; [cbn; destruct (k =? S j); reflexivity|]. split; [exact Q1|]. intros [?|[? _]]; apply Q2; left; lia.
    + rewrite C2. reflexivity.
    + pcl.
    + reflexivity.
    + intros _. unfold remaining. rewrite Epc. cbn [with_pc set_worker with_workers s_pc s_workers s_batch handed]. rewrite (map_wrem_upd _ _ _ _ _ Hn C3). reflexivity.
Qed.

Lemma inv_del program (s s' : state) j c : inv program s -> s_pc s = MDel j c -> j < length (s_workers s) ->
  change_state_step s j c ExitAsSoonAsPossible None (MDel j) (MJoin j) = Some s' -> inv program s'.
Proof.
  intros I Epc Hj H. pose proof (iv_pc _ _ I) as P. rewrite Epc in P. cbn in P.
  unfold change_state_step in H. destruct (nth_error (s_workers s) j) as [w|] eqn:Hn.
  2:{ apply nth_error_None in Hn. lia. }
  destruct (iv_w _ _ I j w Hn) as [W R]. rewrite Epc, view_del in W. rewrite Epc in R. cbn [role] in R. rewrite Nat.ltb_irrefl, Nat.eqb_refl in R.
  assert (Ho : forall c2 k (x : worker), k <> j -> role (MDel j c) (batch_workers s) k x -> view (@MDel A j c2) k = view (@MDel A j c) k /\ role (MDel j c2) (batch_workers s) k x).
  { intros c2 k x Hk Q. rewrite !view_other_del by exact Hk. split; [reflexivity|]. cbn [role] in *. apply Nat.eqb_neq in Hk. rewrite Hk in *. exact Q. }
  assert (Hs : forall c2 (x : worker), (if early c2 then idle x else w_state x = ExitAsSoonAsPossible) -> role (MDel j c2) (batch_workers s) j x).
  { intros c2 x Q. cbn [role]. rewrite Nat.ltb_irrefl, Nat.eqb_refl. exact Q. }
  destruct c; cbn [early] in R.
  - (* CLock *)
    destruct (w_owner w) eqn:Eo; [discriminate|]. injection H as <-. destruct (cs_lock true w W R Eo) as (C1 & C2 & C3 & C4).
    apply (inv_upd program s j w _ (MDel j CCheck) I Hn); rewrite ?Epc; try discriminate; auto.
    + rewrite view_del. exact C1.
    + pcl.
  - (* CCheck *)
    destruct (cs_check_del w W) as (C1 & C2). rewrite C1 in H. injection H as <-.
    apply (inv_upd program s j w _ (MDel j CStore) I Hn); rewrite ?Epc; try discriminate; auto.
    + rewrite view_del. exact C2.
    + pcl.
  - (* CStore *)
    injection H as <-. destruct (cs_store true w W) as (C1 & C2 & C3 & C4).
    apply (inv_upd program s j w _ (MDel j CBroadcast) I Hn); rewrite ?Epc; try discriminate; auto.
    + rewrite view_del. exact C1.
    + apply Hs. reflexivity.
    + pcl.
  - (* CBroadcast *)
    injection H as <-. destruct (cs_broadcast true w W) as (C1 & C2 & C3 & C4).
    apply (inv_upd program s j w _ (MDel j CUnlock) I Hn); rewrite ?Epc; try discriminate; auto.
    + rewrite view_del. exact C1.
    + apply Hs. cbn [early]. rewrite C4. exact R.
    + pcl.
  - (* CUnlock *)
    injection H as <-. destruct (cs_unlock true w W) as (C1 & C2 & C3).
    apply (inv_upd program s j w _ (MJoin j) I Hn); rewrite ?Epc; try discriminate; auto.
    + cbn [role]. rewrite Nat.ltb_irrefl, Nat.eqb_refl. exact R.
    + intros k x Hk _ Q. rewrite view_other_del by exact Hk. split; [reflexivity|]. cbn [role] in *. apply Nat.eqb_neq in Hk. rewrite Hk in *. exact Q.
Qed.

Lemma all_idle program (s : state) : inv program s -> s_count s = 0 ->
  (forall i w, nth_error (s_workers s) i = Some w -> w_state w <> ExitAsSoonAsPossible) ->
  forall i w, nth_error (s_workers s) i = Some w -> idle w.
Proof.
  intros I Hc He i w Hn. rewrite (iv_count _ _ I) in Hc. pose proof (pend_in _ _ _ Hn) as X. unfold p1 in X.
  assert (E : is_pending w = false) by (destruct (is_pending w); [lia|reflexivity]). split; [|exact E].
  specialize (He i w Hn). unfold is_pending in E. destruct (w_state w); try discriminate; try congruence.
Qed.
Lemma idle_wrem (w : worker) : wok w None -> idle w -> wrem w = [].
Proof.
  intros (_ & _ & W) [E P]. unfold wrem. unfold is_pending in P. rewrite E in *. destruct (w_pc w); try contradiction; try discriminate; rewrite W; reflexivity.
Qed.

Lemma in_firstn {X} n (l : list X) x : In x (firstn n l) -> In x l.
Proof. intros H. rewrite <- (firstn_skipn n l). apply in_or_app. left. exact H. Qed.
Lemma inv_caller program (s s' : state) : inv program s -> (forall b, In b program -> b <> []) -> s_failed s = false -> caller_step s = Some s' -> inv program s'.
Proof.
  intros I Hne Hf H. pose proof (iv_pc _ _ I) as P. pose proof (iv_count _ _ I) as HC. unfold caller_step in H. destruct (s_pc s) as [| | | | |j c|r| |j c|j|] eqn:Epc.
  - (* MIdle *)
    assert (Hid : forall i w, nth_error (s_workers s) i = Some w -> idle w) by (intros i w Hn; destruct (iv_w _ _ I i w Hn) as [_ R]; rewrite Epc in R; exact R).
    destruct (s_todo s) as [|b rest] eqn:Et.
    + injection H as <-. apply (inv_pc program s (MDel 0 CLock) I); rewrite ?Epc; try discriminate; auto.
      * intros k x Hx W _. split; [cbn in *; destruct (k =? 0); exact W|]. cbn [role]. replace (k <? 0) with false by (symmetry; apply Nat.ltb_ge; lia).
        destruct (k =? 0); cbn [early]; eapply Hid; eauto.
      * pcl.
    + assert (Hb : b <> []).
      { apply Hne. destruct (iv_prog _ _ I) as (done & D1 & D2 & _). rewrite D2, Et. apply in_or_app. right. rewrite Epc. cbn. left. reflexivity. }
      assert (E : s' = mk_state (s_workers s) (s_count s) MCreate b rest (s_returned s) (s_trace s) (s_failed s)) by (destruct b; [congruence|injection H as <-; reflexivity]).
      rewrite E. clear H E s'. constructor; cbn [s_failed s_workers s_count s_pc s_batch s_todo s_returned s_trace active remaining extra pc_ok role view].
      * exact Hf.
      * intros i w Hn. destruct (iv_w _ _ I i w Hn) as [W R]. rewrite Epc in W. split; [exact W|]. eapply Hid; eauto.
      * rewrite HC. reflexivity.
      * exact Logic.I.
      * destruct (iv_prog _ _ I) as (done & D1 & D2 & tr1 & tr2 & T1 & T2 & T3). rewrite Epc in *. cbn in T3, D2. subst tr2. exists done.
        split; [exact D1|]. split; [rewrite D2, Et; reflexivity|]. exists tr1, []. auto.
      * intros _. exact Hb.
  - (* MCreate *)
    destruct (batch_workers s <=? length (s_workers s)) eqn:E.
    + injection H as <-. apply Nat.leb_le in E. apply (inv_pc program s MReset I); rewrite ?Epc; auto.
      intros _. unfold remaining. rewrite Epc. reflexivity.
    + apply Nat.leb_gt in E. destruct (s_count s =? 0) eqn:E0; [|exfalso].
      * injection H as <-. apply Nat.eqb_eq in E0.
        constructor; cbn [with_pc with_count s_failed s_workers s_count s_pc s_batch s_todo s_returned s_trace active]; unfold batch_workers; cbn [with_pc set_worker with_workers with_count emit s_batch]; change (length (s_batch s) - 1) with (batch_workers s).
        -- exact Hf.
        -- intros i w Hn. destruct (iv_w _ _ I i w Hn) as [W R]. rewrite Epc in W, R. split; [exact W|]. right. apply R.
        -- cbn in HC. cbn [extra]. lia.
        -- pcl.
        -- destruct (iv_prog _ _ I) as (done & D1 & D2 & tr1 & tr2 & T1 & T2 & T3). rewrite Epc in *. unfold remaining in T3. rewrite Epc in T3. cbn in T3, D2.
           exists done. split; [exact D1|]. split; [exact D2|]. exists tr1, tr2. auto.
        -- intros _. apply (iv_batch _ _ I). rewrite Epc. reflexivity.
      * apply Nat.eqb_neq in E0. apply E0. rewrite HC. cbn. rewrite pend_zero; [reflexivity|]. intros i w Hn. destruct (iv_w _ _ I i w Hn) as [_ R]. rewrite Epc in R. apply R.
  - (* MSpawn *)
    cbn in P. destruct (length (s_workers s) <? batch_workers s) eqn:E.
    + injection H as <-. apply Nat.ltb_lt in E.
      constructor; cbn [with_workers s_failed s_workers s_count s_pc s_batch s_todo s_returned s_trace]; unfold batch_workers; cbn [with_pc set_worker with_workers with_count emit s_batch]; change (length (s_batch s) - 1) with (batch_workers s); rewrite ?Epc.
      * exact Hf.
      * intros i w Hn. destruct (le_lt_dec (length (s_workers s)) i) as [L|L].
        -- rewrite nth_error_app2 in Hn by exact L. destruct (i - length (s_workers s)) as [|k]; [|destruct k; discriminate]. injection Hn as <-. cbn.
           split; [|left; reflexivity]. unfold PoolProofs.wok. cbn. repeat split; auto.
        -- rewrite nth_error_app1 in Hn by exact L. destruct (iv_w _ _ I i w Hn) as [W R]. rewrite Epc in W, R. auto.
      * rewrite app_length. unfold pend. rewrite map_app, list_sum_app. cbn [map list_sum fold_right length]. fold (pend (s_workers s)). cbn in HC. change (p1 new_worker) with 1. cbn [extra]. lia.
      * rewrite app_length. pcl.
      * destruct (iv_prog _ _ I) as (done & D1 & D2 & tr1 & tr2 & T1 & T2 & T3). rewrite Epc in *. unfold remaining in *. cbn [s_pc with_workers]. rewrite Epc in *. cbn in *.
        exists done. split; [exact D1|]. split; [exact D2|]. exists tr1, tr2. auto.
      * intros _. apply (iv_batch _ _ I). rewrite Epc. reflexivity.
    + injection H as <-. apply Nat.ltb_ge in E. apply (inv_pc program s MCreateWait I); rewrite ?Epc; auto.
      * pcl.
      * intros _. unfold remaining. rewrite Epc. reflexivity.
  - (* MCreateWait *)
    destruct (s_count s =? 0) eqn:E0; [|discriminate]. injection H as <-. apply Nat.eqb_eq in E0.
    apply (inv_pc program s MReset I); rewrite ?Epc; auto.
    + intros k x Hx W R. split; [exact W|]. apply (all_idle program s I E0) with k; [|exact Hx].
      intros i w Hn. destruct (iv_w _ _ I i w Hn) as [_ R']. rewrite Epc in R'. cbn in R'. intuition congruence.
    + intros _. unfold remaining. rewrite Epc. reflexivity.
  - (* MReset *)
    cbn in P. assert (Z0 : pend (s_workers s) = 0).
    { apply pend_zero. intros i w Hn. destruct (iv_w _ _ I i w Hn) as [_ R]. rewrite Epc in R. apply R. }
    rewrite HC, Z0 in H. cbn in H. injection H as <-.
    constructor; cbn [with_pc with_count s_failed s_workers s_count s_pc s_batch s_todo s_returned s_trace]; unfold batch_workers; cbn [with_pc set_worker with_workers with_count emit s_batch]; change (length (s_batch s) - 1) with (batch_workers s).
    + exact Hf.
    + intros i w Hn. destruct (iv_w _ _ I i w Hn) as [W R]. rewrite Epc in W, R. split; [cbn; destruct (i =? 0); exact W|]. split; [right; apply R|intros _; exact R].
    + cbn [extra early]. lia.
    + pcl.
    + destruct (iv_prog _ _ I) as (done & D1 & D2 & tr1 & tr2 & T1 & T2 & T3). rewrite Epc in *. unfold remaining in *. cbn [s_pc with_pc with_count s_workers s_batch]. rewrite Epc in *. cbn in *.
      exists done. split; [exact D1|]. split; [exact D2|]. exists tr1, tr2. auto.
    + intros _. apply (iv_batch _ _ I). rewrite Epc. reflexivity.
  - (* MGive *)
    cbn in P. destruct (j <? batch_workers s) eqn:E.
    + apply Nat.ltb_lt in E. eapply inv_give; eauto.
    + apply Nat.ltb_ge in E. assert (j = batch_workers s /\ c = CLock) as [-> ->] by (destruct P as [_ [?|?]]; [lia|assumption]).
      injection H as <-. pose proof (iv_batch _ _ I) as B. rewrite Epc in B. specialize (B eq_refl).
      apply (inv_pc program s (MRun (last (s_batch s) [])) I); rewrite ?Epc; auto.
      * intros k x Hx W [R1 R2]. cbn in W. assert (W' : wok x None) by (destruct (k =? batch_workers s); exact W). split; [exact W'|].
        split; [exact R1|]. intros L. apply R2. cbn [early]. lia.
      * pcl.
      * cbn. apply P.
      * intros _. unfold remaining. rewrite Epc. cbn [with_pc s_pc handed]. unfold batch_workers. cbn [s_batch s_workers]. rewrite (skipn_last (s_batch s) []) by exact B. reflexivity.
  - (* MRun *)
    destruct r as [|a r].
    + injection H as <-. apply (inv_pc program s MWait I); rewrite ?Epc; auto.
      intros _. unfold remaining. rewrite Epc. reflexivity.
    + injection H as <-.
      assert (Hact : active (s_pc s) = true) by (rewrite Epc; reflexivity). pose proof (length_remaining _ _ I Hact) as LR.
      constructor; cbn [emit with_pc s_failed s_workers s_count s_pc s_batch s_todo s_returned s_trace]; unfold batch_workers; cbn [with_pc set_worker with_workers with_count emit s_batch]; change (length (s_batch s) - 1) with (batch_workers s).
      * exact Hf.
      * intros i w Hn. destruct (iv_w _ _ I i w Hn) as [W R]. rewrite Epc in W, R. auto.
      * exact HC.
      * exact P.
      * destruct (iv_prog _ _ I) as (done & D1 & D2 & tr1 & tr2 & T1 & T2 & T3). rewrite Epc in *. unfold remaining in *. cbn [emit with_pc s_pc s_workers s_batch]. rewrite Epc in *. cbn [active] in *.
        unfold batch_workers in *. cbn [s_batch].
        exists done. split; [exact D1|]. split; [exact D2|]. exists tr1, (tr2 ++ [(Caller, a)]). split; [rewrite T1, app_assoc; reflexivity|]. split; [exact T2|].
        intros tr3 H3. rewrite <- app_assoc. cbn [app]. apply T3. pose proof (interleaving_emit _ [] a r tr3 H3) as Q.
        set (l1 := map wrem _) in *. rewrite app_length in LR. cbn [length] in LR, Q. rewrite LR in Q. unfold runner in Q.
        replace (S (length l1) =? length (s_batch s)) with true in Q; [exact Q|]. symmetry. apply Nat.eqb_eq. lia.
      * intros _. apply (iv_batch _ _ I). rewrite Epc. reflexivity.
  - (* MWait *)
    destruct (s_count s =? 0) eqn:E0; [|discriminate]. injection H as <-. apply Nat.eqb_eq in E0.
    assert (Hid : forall i w, nth_error (s_workers s) i = Some w -> idle w).
    { apply (all_idle program s I E0). intros i w Hn. destruct (iv_w _ _ I i w Hn) as [_ R]. rewrite Epc in R. destruct R as [R _]. intuition congruence. }
    constructor; cbn [s_failed s_workers s_count s_pc s_batch s_todo s_returned s_trace active].
    + exact Hf.
    + intros i w Hn. destruct (iv_w _ _ I i w Hn) as [W R]. rewrite Epc in W. split; [exact W|]. eapply Hid; eauto.
    + cbn in HC |- *. lia.
    + exact Logic.I.
    + destruct (iv_prog _ _ I) as (done & D1 & D2 & tr1 & tr2 & T1 & T2 & T3). unfold remaining in T3. rewrite Epc in *. cbn [active] in *.
      exists (done ++ [s_batch s]). split; [rewrite app_length; cbn; lia|]. split; [rewrite D2, <- app_assoc; reflexivity|].
      exists (tr1 ++ tr2), []. split; [rewrite app_nil_r; exact T1|]. split; [|reflexivity].
      rewrite map_app. apply execution_app; [exact T2|]. rewrite <- (app_nil_r tr2). cbn [map]. apply ex_cons; [|apply ex_nil].
      rewrite <- (app_nil_r tr2). apply T3. apply assigned_empty. intros t Ht. apply in_app_or in Ht. destruct Ht as [Ht|[<-|[]]]; [|reflexivity].
      apply in_map_iff in Ht. destruct Ht as (w & <- & Hw). apply in_firstn in Hw. apply In_nth_error in Hw. destruct Hw as (i & Hn).
      apply idle_wrem; [|eapply Hid; eauto]. destruct (iv_w _ _ I i w Hn) as [W _]. rewrite Epc in W. exact W.
    + discriminate.
  - (* MDel *)
    cbn in P. destruct (j <? length (s_workers s)) eqn:E.
    + apply Nat.ltb_lt in E. eapply inv_del; eauto.
    + apply Nat.ltb_ge in E. assert (j = length (s_workers s) /\ c = CLock) as [-> ->] by (destruct P as [?|?]; [lia|assumption]).
      injection H as <-. apply (inv_pc program s MEnd I); rewrite ?Epc; try discriminate; auto.
      * intros k x Hx W R. assert (k < length (s_workers s)) by (apply nth_error_Some; congruence). rewrite view_other_del in W by lia. split; [exact W|].
        cbn [role] in *. apply Nat.ltb_lt in H. rewrite H in R. exact R.
      * exact Logic.I.
  - (* MJoin *)
    cbn in P. destruct (nth_error (s_workers s) j) as [w|] eqn:Hn; [|apply nth_error_None in Hn; lia].
    destruct (iv_w _ _ I j w Hn) as [W R]. rewrite Epc in W, R.
    destruct (w_pc w) eqn:Ew; try discriminate. destruct (w_owner w) eqn:Eo.
    { exfalso. destruct W as (W & _). rewrite Ew, Eo in W. discriminate. }
    injection H as <-. apply (inv_pc program s (MDel (S j) CLock) I); rewrite ?Epc; try discriminate; auto.
    + intros k x Hx Wk Rk. split; [cbn; destruct (k =? S j); exact Wk|]. cbn [role] in *.
      destruct (k <? S j) eqn:E1.
      * apply Nat.ltb_lt in E1. destruct (k <? j) eqn:E2; [exact Rk|]. apply Nat.ltb_ge in E2. assert (k = j) by lia. subst k. congruence.
      * apply Nat.ltb_ge in E1. replace (k <? j) with false in Rk by (symmetry; apply Nat.ltb_ge; lia). replace (k =? j) with false in Rk by (symmetry; apply Nat.eqb_neq; lia).
        destruct (k =? S j); cbn [early]; exact Rk.
    + pcl.
  - discriminate.
Qed.
End Proofs.
