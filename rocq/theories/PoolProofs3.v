From Coq Require Import List Arith Bool Lia.
Import ListNotations.
From Verif Require Import GemmContract PoolModel PoolSpec PoolProofs PoolProofs2.
Local Open Scope nat_scope.

Section Proofs.
Context {A : Type}.
Notation worker := (@worker A).
Notation state := (@state A).
Notation wok := (@wok A).
Variable spins : nat.

Lemma inv_spurious program (s : state) i w : inv program s -> nth_error (s_workers s) i = Some w -> w_pc w = WSleep ->
  inv program (set_worker s i (set_pc w WWake)).
Proof.
  intros I Hn Hs. destruct (iv_w _ _ I i w Hn) as [W R]. destruct (spurious_ok w _ W Hs) as (C1 & C2 & C3 & C4 & C5).
  replace (set_worker s i (set_pc w WWake)) with (with_pc (set_worker s i (set_pc w WWake)) (s_pc s)) by reflexivity.
  apply (inv_upd program s i w _ (s_pc s) I Hn); auto.
  - eapply role_step; eauto. congruence.
  - apply (iv_pc _ _ I).
  - intros _. unfold remaining. cbn [with_pc set_worker with_workers s_pc s_workers s_batch].
    destruct (s_pc s); rewrite ?(map_wrem_upd _ _ _ _ _ Hn C3); reflexivity.
Qed.

Lemma inv_init program : inv program (@init A program).
Proof.
  constructor; cbn; auto; try discriminate.
  - intros [|i] w H; discriminate.
  - exists []. repeat split; auto. exists [], []. repeat split; auto. apply ex_nil.
Qed.

Lemma inv_step program (s : state) l s' : (forall b, In b program -> b <> []) -> inv program s -> step spins s l = Some s' -> inv program s'.
Proof.
  intros Hne I H. unfold step in H. rewrite (iv_fail _ _ I) in H. destruct l as [|i|i].
  - eapply inv_caller; eauto. apply (iv_fail _ _ I).
  - destruct (nth_error (s_workers s) i) as [w|] eqn:Hn; [|discriminate]. eapply inv_worker; eauto.
  - destruct (nth_error (s_workers s) i) as [w|] eqn:Hn; [|discriminate]. destruct (w_pc w) eqn:E; try discriminate.
    injection H as <-. eapply inv_spurious; eauto.
Qed.
Lemma reachable_inv program (s : state) : (forall b, In b program -> b <> []) -> reachable spins program s -> inv program s.
Proof. intros Hne H. induction H; [apply inv_init|]. eapply inv_step; eauto. Qed.

(* ------------------------------------------------------------------ *)
(* what has been performed *)
Lemma interleaving_exists {X} (l : list (list X)) : exists tr, interleaving l tr.
Proof.
  exists (concat l). induction l as [|t l IH]; [apply il_done; intros ? []|]. induction t as [|a t IHt]; cbn.
  - clear - IH. cbn in *. remember (concat l) as tr. clear Heqtr. induction IH as [ts H|l1 a t l2 tr H IH].
    + apply il_done. intros t [<-|Ht]; auto.
    + apply (il_step ([] :: l1)). exact IH.
  - apply (il_step [] a t l). exact IHt.
Qed.
Lemma performed_ok program (s : state) : inv program s -> performed program (s_returned s) (s_trace s).
Proof.
  intros I. destruct (iv_prog _ _ I) as (done & D1 & D2 & tr1 & tr2 & T1 & T2 & T3). exists tr1, tr2. split; [exact T1|].
  rewrite D2, <- D1. rewrite firstn_app, firstn_all, Nat.sub_diag. cbn [firstn]. rewrite app_nil_r. split; [exact T2|].
  rewrite nth_error_app2, Nat.sub_diag by lia. destruct (active (s_pc s)).
  - cbn. destruct (interleaving_exists (assigned (remaining s))) as (tr3 & H3). exists tr3. auto.
  - cbn [app]. subst tr2. destruct (s_todo s) as [|b r]; cbn; [reflexivity|]. cbn [app]. apply interleaving_exists.
Qed.
Lemma performed_idle program (s : state) : inv program s -> active (s_pc s) = false ->
  execution (map assigned (firstn (s_returned s) program)) (s_trace s).
Proof.
  intros I Ha. destruct (iv_prog _ _ I) as (done & D1 & D2 & tr1 & tr2 & T1 & T2 & T3). rewrite Ha in *. subst tr2.
  rewrite T1, app_nil_r, D2, <- D1. rewrite firstn_app, firstn_all, Nat.sub_diag. cbn [firstn]. rewrite app_nil_r. exact T2.
Qed.
Lemma tasks_idle program (s : state) i w : inv program s -> s_pc s = MIdle -> nth_error (s_workers s) i = Some w -> w_state w = Ready /\ w_task w = None /\ w_owner w <> Some OCaller.
Proof.
  intros I E Hn. destruct (iv_w _ _ I i w Hn) as [W R]. rewrite E in W, R. destruct R as [R1 R2]. split; [exact R1|].
  destruct W as (Wo & _ & W). cbn in W, Wo. unfold is_pending in R2. rewrite R1 in *. split.
  - destruct (w_pc w); try contradiction; try discriminate; tauto.
  - rewrite Wo. destruct (held (w_pc w)); discriminate.
Qed.
Lemma done_end program (s : state) : inv program s -> s_pc s = MEnd -> forall i w, nth_error (s_workers s) i = Some w -> w_pc w = WDone /\ w_owner w = None /\ w_task w = None.
Proof.
  intros I E i w Hn. destruct (iv_w _ _ I i w Hn) as [W R]. rewrite E in W, R. cbn in R. split; [exact R|].
  destruct W as (Wo & _ & W). rewrite R in *. cbn in Wo. split; [exact Wo|]. destruct (w_state w); try contradiction; destruct W as (W1 & W2); try contradiction; destruct W2; tauto.
Qed.

(* the end is reached only after everything has been handed out *)
Lemma todo_end program (s : state) : reachable spins program s ->
  (match s_pc s with MDel _ _ | MJoin _ | MEnd => s_todo s = [] | _ => True end).
Proof.
  intros H. induction H as [|s l s' H IH Hs]; [exact Logic.I|]. unfold step in Hs. destruct (s_failed s); [discriminate|].
  destruct l as [|i|i].
  - unfold caller_step in Hs. destruct (s_pc s) as [| | | | |j c|r| |j c|j|] eqn:Epc; cbn in IH.
    all: repeat match type of Hs with
      | (match ?x with _ => _ end) = _ => destruct x eqn:?
      | (if ?x then _ else _) = _ => destruct x eqn:?
      | change_state_step _ _ _ _ _ _ _ = _ => unfold change_state_step in Hs
      end; try discriminate; injection Hs as <-; cbn; rewrite ?Epc; auto.
  - destruct (nth_error (s_workers s) i) as [w|]; [|discriminate]. unfold worker_step in Hs.
    assert (s_pc s' = s_pc s /\ s_todo s' = s_todo s) as [-> ->]; [|exact IH].
    repeat match type of Hs with
      | (match ?x with _ => _ end) = _ => destruct x eqn:?
      end; try discriminate; injection Hs as <-; cbn; auto.
  - destruct (nth_error (s_workers s) i) as [w|]; [|discriminate]. destruct (w_pc w); try discriminate. injection Hs as <-. exact IH.
Qed.
Lemma all_returned program (s : state) : inv program s -> s_pc s = MEnd -> s_todo s = [] -> s_returned s = length program.
Proof.
  intros I E Et. destruct (iv_prog _ _ I) as (done & D1 & D2 & _). rewrite E, Et in D2. cbn in D2. rewrite app_nil_r in D2. rewrite D2. symmetry. exact D1.
Qed.

(* ------------------------------------------------------------------ *)
(* no deadlock *)
Lemma worker_can_step s i (w : worker) : wok w None -> w_pc w <> WSleep -> w_pc w <> WDone -> worker_step spins s i w <> None.
Proof.
  intros (Wo & _ & W) H1 H2. unfold worker_step. destruct (w_pc w); cbn in Wo; rewrite ?Wo; try congruence; try discriminate.
  - destruct (w_state w); discriminate.
  - destruct rest; discriminate.
  - destruct (s_count s); discriminate.
  - destruct (w_state w); discriminate.
  - destruct (w_state w); discriminate.
  - destruct v; discriminate.
Qed.
Lemma held_can_step s i (w : worker) : held (w_pc w) = true -> worker_step spins s i w <> None.
Proof.
  intros Hh. unfold worker_step. destruct (w_pc w); cbn in Hh; try discriminate.
  - destruct (w_state w); discriminate.
  - destruct rest; discriminate.
  - destruct (w_state w); discriminate.
Qed.
Lemma pending_awake (w : worker) : wok w None -> is_pending w = true -> w_pc w <> WSleep /\ w_pc w <> WDone.
Proof.
  intros (_ & _ & W) P. unfold is_pending in P. destruct (w_state w); try discriminate; destruct (w_pc w); split; try discriminate; intros E; try discriminate;
    repeat match goal with H : _ /\ _ |- _ => destruct H end; try contradiction; try discriminate.
Qed.
Lemma pend_pos (ws : list worker) : 0 < pend ws -> exists i w, nth_error ws i = Some w /\ is_pending w = true.
Proof.
  induction ws as [|w ws IH]; intros H; [inversion H|]. change (pend (w :: ws)) with (p1 w + pend ws) in H. unfold p1 in H. destruct (is_pending w) eqn:E.
  - exists 0, w. auto.
  - destruct (IH H) as (i & x & Hx). exists (S i), x. exact Hx.
Qed.

Lemma progress program (s : state) : inv program s -> s_pc s <> MEnd -> exists l s', is_spurious l = false /\ step spins s l = Some s'.
Proof.
  intros I Hend. unfold step. rewrite (iv_fail _ _ I).
  assert (Kc : caller_step s <> None -> exists l s', is_spurious l = false /\
     match l with LCaller => caller_step s | LWorker i => match nth_error (s_workers s) i with Some w => worker_step spins s i w | None => None end
       | LSpurious i => match nth_error (s_workers s) i with Some w => match w_pc w with WSleep => Some (set_worker s i (set_pc w WWake)) | _ => None end | None => None end end = Some s').
  { intros H. destruct (caller_step s) as [s'|] eqn:E; [|congruence]. exists LCaller, s'. auto. }
  assert (Kw : forall i w, nth_error (s_workers s) i = Some w -> worker_step spins s i w <> None -> exists l s', is_spurious l = false /\
     match l with LCaller => caller_step s | LWorker i => match nth_error (s_workers s) i with Some w => worker_step spins s i w | None => None end
       | LSpurious i => match nth_error (s_workers s) i with Some w => match w_pc w with WSleep => Some (set_worker s i (set_pc w WWake)) | _ => None end | None => None end end = Some s').
  { intros i w Hn H. destruct (worker_step spins s i w) as [s'|] eqn:E; [|congruence]. exists (LWorker i), s'. rewrite Hn. auto. }
  assert (Kp : (forall i, view (s_pc s) i = None) -> 0 < pend (s_workers s) -> exists i w, nth_error (s_workers s) i = Some w /\ worker_step spins s i w <> None).
  { intros Hv Hp. destruct (pend_pos _ Hp) as (i & w & Hn & P). exists i, w. split; [exact Hn|]. destruct (iv_w _ _ I i w Hn) as [W _]. rewrite Hv in W.
    destruct (pending_awake w W P). apply worker_can_step; assumption. }
  pose proof (iv_count _ _ I) as HC. pose proof (iv_pc _ _ I) as P.
  assert (Kcs : forall j c st t here next, (forall c', c' <> CLock -> True) -> 
     (caller_step s = change_state_step s j c st t here next) -> (c = CLock -> view (s_pc s) j = None) ->
     exists l s', is_spurious l = false /\
     match l with LCaller => caller_step s | LWorker i => match nth_error (s_workers s) i with Some w => worker_step spins s i w | None => None end
       | LSpurious i => match nth_error (s_workers s) i with Some w => match w_pc w with WSleep => Some (set_worker s i (set_pc w WWake)) | _ => None end | None => None end end = Some s').
  { intros j c st t here next _ E Hv. unfold change_state_step in E. destruct (nth_error (s_workers s) j) as [w|] eqn:Hn; [|apply Kc; rewrite E; discriminate].
    destruct c; try (apply Kc; rewrite E; discriminate).
    - destruct (w_owner w) eqn:Eo; [|apply Kc; rewrite E; discriminate].
      apply (Kw j w Hn). apply held_can_step. destruct (iv_w _ _ I j w Hn) as [(Wo & _) _]. rewrite Hv in Wo by reflexivity. destruct (held (w_pc w)); [reflexivity|congruence].
    - apply Kc. rewrite E. repeat match goal with |- context [match ?x with _ => _ end] => destruct x end; discriminate. }
  destruct (s_pc s) as [| | | | |j c|r| |j c|j|] eqn:Epc.
  - apply Kc. unfold caller_step. rewrite Epc. destruct (s_todo s) as [|[|? ?] ?]; discriminate.
  - apply Kc. unfold caller_step. rewrite Epc. repeat match goal with |- context [if ?x then _ else _] => destruct x end; discriminate.
  - apply Kc. unfold caller_step. rewrite Epc. repeat match goal with |- context [if ?x then _ else _] => destruct x end; discriminate.
  - destruct (s_count s) eqn:E0; [apply Kc; unfold caller_step; rewrite Epc, E0; discriminate|].
    destruct Kp as (i & w & Hn & Hw); [reflexivity|cbn in HC; lia|]. exact (Kw i w Hn Hw).
  - apply Kc. unfold caller_step. rewrite Epc. repeat match goal with |- context [if ?x then _ else _] => destruct x end; discriminate.
  - destruct (j <? batch_workers s) eqn:Ej.
    + apply (Kcs j c HasWork (nth_error (s_batch s) j) (MGive j) (MGive (S j) CLock)); [auto| |].
      * unfold caller_step. rewrite Epc, Ej. reflexivity.
      * intros ->. cbn. rewrite Nat.eqb_refl. reflexivity.
    + apply Kc. unfold caller_step. rewrite Epc, Ej. discriminate.
  - apply Kc. unfold caller_step. rewrite Epc. destruct r; discriminate.
  - destruct (s_count s) eqn:E0; [apply Kc; unfold caller_step; rewrite Epc, E0; discriminate|].
    destruct Kp as (i & w & Hn & Hw); [reflexivity|cbn in HC; lia|]. exact (Kw i w Hn Hw).
  - destruct (j <? length (s_workers s)) eqn:Ej.
    + apply (Kcs j c ExitAsSoonAsPossible None (MDel j) (MJoin j)); [auto| |].
      * unfold caller_step. rewrite Epc, Ej. reflexivity.
      * intros ->. cbn. rewrite Nat.eqb_refl. reflexivity.
    + apply Kc. unfold caller_step. rewrite Epc, Ej. discriminate.
  - cbn in P. destruct (nth_error (s_workers s) j) as [w|] eqn:Hn; [|apply nth_error_None in Hn; lia].
    destruct (iv_w _ _ I j w Hn) as [W R]. rewrite Epc in W, R. cbn [role] in R. rewrite Nat.ltb_irrefl, Nat.eqb_refl in R. cbn in W.
    assert (Hns : w_pc w <> WSleep) by (intros E; destruct W as (_ & _ & W); rewrite R, E in W; destruct W as (_ & _ & W); discriminate).
    destruct (w_pc w) eqn:Ew; try (apply (Kw j w Hn); apply worker_can_step; [exact W|rewrite Ew; discriminate|rewrite Ew; discriminate]); try congruence.
    apply Kc. unfold caller_step. rewrite Epc, Hn, Ew. destruct (w_owner w); discriminate.
  - congruence.
Qed.

(* ------------------------------------------------------------------ *)
(* the number of steps *)
Definition work (w : worker) : nat := match w_task w with Some t => length t | None => 0 end + spins + 12.
Definition wc (w : worker) : nat :=
  match w_pc w with
  | WLock => work w | WCheck => work w - 1 | WRun r => length r + spins + 10
  | WStore => spins + 9 | WBroadcast => spins + 8 | WUnlock => spins + 7 | WDec => spins + 6
  | WDone => 0
  | pc =>
      match pc with WLoad n => n + 5 | WWaitLock => 4 | WWaitLoad => 3 | WSleep => 0 | WWake => 4 | WWaitUnlock _ => 2 | _ => 1 end +
      match w_task w with Some t => length t + spins + 12 | None => 0 end
  end.
Lemma worker_dec s i (w : worker) v s' :
  worker_step spins s i w = Some s' -> wok w v -> (is_pending w = true -> 0 < s_count s) ->
  exists w' n tr, s' = mk_state (upd (s_workers s) i w') n (s_pc s) (s_batch s) (s_todo s) (s_returned s) tr (s_failed s) /\ wc w' < wc w.
Proof.
  intros H Hw Hp. destruct w as [st tk ow pc]. unfold PoolProofs.wok in Hw. cbn [w_state w_task w_owner w_pc] in Hw.
  destruct Hw as (Ho & Hh & Hs).
  unfold worker_step in H. cbn [w_pc w_state w_owner w_task] in H.
  destruct pc; destruct st; cbn [held] in *; try contradiction; try (destruct Hs as (? & ? & ?); contradiction);
    try (destruct Hs as (? & ?); contradiction); try discriminate;
  try (match goal with H : context [match ?r with [] => _ | _ :: _ => _ end] |- _ => destruct r as [|a r] end);
  try (match goal with H : context [match s_count s with _ => _ end] |- _ => destruct (s_count s) as [|n] eqn:Ec; [exfalso; specialize (Hp eq_refl); lia|] end);
  try (match goal with H : context [match ?v with ThreadStartup => _ | _ => _ end] |- _ => is_var v; destruct v end);
  destruct v as [[[] []]|]; cbn in Hs; try contradiction; try (specialize (Hh eq_refl); discriminate);
       try (destruct Hs as (? & ? & ?); contradiction); try (destruct Hs as (? & ?); contradiction);
       try (destruct Hs as (? & ? & ?); discriminate); try (destruct Hs as (? & ?); discriminate);
  rewrite Ho in H; try discriminate;
  try (match goal with H : context [match tk with Some _ => _ | None => _ end] |- _ => destruct tk end);
  injection H as <-;
  try (match goal with
       | |- exists w' n em, emit (set_worker s i ?w) ?t ?a = _ /\ _ => exists w, (s_count s), (s_trace s ++ [(t, a)])
       | |- exists w' n em, with_count (set_worker s i ?w) ?k = _ /\ _ => exists w, k, (s_trace s)
       | |- exists w' n em, set_worker s i ?w = _ /\ _ => exists w, (s_count s), (s_trace s)
       end; (split; [reflexivity|]));
  try (match goal with n : nat |- context [match ?n with O => WWaitLock | S _ => _ end] => destruct n end);
  unfold wc, work; cbn; repeat match goal with H : _ /\ _ |- _ => destruct H end; subst; cbn; try (destruct tk; [|exfalso; congruence]); try lia; try (destruct tk; lia).
Qed.

Definition total (l : list (list A)) : nat := list_sum (map (fun t => length t + spins + 21) l).
Definition todo_cost (l : list (list (list A))) : nat := list_sum (map (fun b => total b + 5 + length b * (spins + 23)) l).
Definition give_cost (c : cpc) (t : list A) : nat :=
  match c with CLock => length t + spins + 21 | CCheck => length t + spins + 20 | CStore => 7 | CBroadcast => 6 | CUnlock => 1 end.
Definition del_cost (c : cpc) : nat := match c with CLock => 10 | CCheck => 9 | CStore => 8 | CBroadcast => 7 | CUnlock => 2 end.
Definition pc_cost (s : state) : nat :=
  let size := length (s_workers s) in let n := batch_workers s in
  match s_pc s with
  | MDel j c => (if j <? size then del_cost c + 10 * (size - S j) else 0) + 1
  | MJoin j => 10 * (size - S j) + 2
  | MEnd => 0
  | pc =>
     match pc with
     | MCreate => total (s_batch s) + 4 + (n - size) * (spins + 23)
     | MSpawn => total (s_batch s) + 3 + (n - size) * (spins + 23)
     | MCreateWait => total (s_batch s) + 2
     | MReset => total (s_batch s) + 1
     | MGive j c => give_cost c (nth j (s_batch s) []) + total (skipn (S j) (s_batch s))
     | MRun r => length r + 2
     | MWait => 1
     | _ => 0
     end + todo_cost (s_todo s) + 10 * size + 2
  end.
Definition wcs (l : list worker) : nat := list_sum (map wc l).
Definition cost (s : state) : nat := wcs (s_workers s) + pc_cost s.
Lemma wcs_upd l i w w' : nth_error l i = Some w -> wcs (upd l i w') + wc w = wcs l + wc w'.
Proof.
  intros H. destruct (nth_error_split _ _ H) as (l1 & l2 & -> & <-). rewrite upd_split. unfold wcs. rewrite !map_app, !list_sum_app. cbn. lia.
Qed.
Lemma pc_cost_upd (s : state) i w n tr : pc_cost (mk_state (upd (s_workers s) i w) n (s_pc s) (s_batch s) (s_todo s) (s_returned s) tr (s_failed s)) = pc_cost s.
Proof. unfold pc_cost, batch_workers. cbn [s_workers s_batch s_pc s_todo]. rewrite length_upd. reflexivity. Qed.

Lemma wc_set_owner (w : worker) o : wc (set_owner w o) = wc w.
Proof. reflexivity. Qed.
Lemma wc_task (w : worker) t : wok w (Some (false, CCheck)) -> w_task w = None -> wc (set_task w (Some t)) = wc w + length t + spins + 12.
Proof.
  intros (_ & _ & W) E. destruct w as [st tk ow pc]. unfold wc, set_task. cbn in *. subst tk. destruct st; cbn in *; try (exfalso; intuition discriminate).
  destruct pc; try contradiction; try (exfalso; intuition discriminate); lia.
Qed.
Lemma wc_wake (w : worker) : wc (wake w) <= wc w + 4.
Proof. destruct w as [st tk ow pc]. unfold wc, wake. cbn. destruct pc; cbn; lia. Qed.
Lemma wc_store_give (w : worker) v : wc (set_state w v) = wc w.
Proof. destruct w as [st tk ow pc]. reflexivity. Qed.
Lemma total_skipn (b : list (list A)) j : j < length b -> total (skipn j b) = length (nth j b []) + spins + 21 + total (skipn (S j) b).
Proof.
  revert j. induction b as [|t b IH]; intros [|j] H; cbn [length] in *; try lia; [reflexivity|]. cbn [skipn nth]. rewrite IH by lia. reflexivity.
Qed.
(* ChangeState by the caller *)
Lemma cost_upd (s : state) i w w' pc' : nth_error (s_workers s) i = Some w ->
  cost (with_pc (set_worker s i w') pc') + wc w + pc_cost s = cost s + wc w' + pc_cost (with_pc s pc').
Proof.
  intros Hn. unfold cost. cbn [with_pc set_worker with_workers s_workers]. pose proof (wcs_upd (s_workers s) i w w' Hn).
  assert (pc_cost (with_pc (set_worker s i w') pc') = pc_cost (with_pc s pc')).
  { unfold pc_cost, batch_workers. cbn [with_pc set_worker with_workers s_workers s_batch s_pc s_todo]. rewrite length_upd. reflexivity. }
  lia.
Qed.
Lemma give_dec program (s s' : state) j c : inv program s -> s_pc s = MGive j c -> j < batch_workers s ->
  change_state_step s j c HasWork (nth_error (s_batch s) j) (MGive j) (MGive (S j) CLock) = Some s' -> cost s' < cost s.
Proof.
  intros I Epc Hj H. pose proof (iv_pc _ _ I) as P. rewrite Epc in P. cbn in P.
  unfold change_state_step in H. destruct (nth_error (s_workers s) j) as [w|] eqn:Hn.
  2:{ apply nth_error_None in Hn. lia. }
  destruct (iv_w _ _ I j w Hn) as [W R]. rewrite Epc, view_give in W.
  assert (Hc0 : forall c', pc_cost (with_pc s (MGive j c')) = give_cost c' (nth j (s_batch s) []) + total (skipn (S j) (s_batch s)) + todo_cost (s_todo s) + 10 * length (s_workers s) + 2) by reflexivity.
  assert (Hs : s = with_pc s (s_pc s)) by (destruct s; reflexivity).
  assert (Hc1 : pc_cost s = give_cost c (nth j (s_batch s) []) + total (skipn (S j) (s_batch s)) + todo_cost (s_todo s) + 10 * length (s_workers s) + 2).
  { rewrite Hs at 1. rewrite Epc. apply Hc0. }
  destruct c.
  - destruct (w_owner w) eqn:Eo; [discriminate|]. injection H as <-. pose proof (cost_upd s j w (set_owner w (Some OCaller)) (MGive j CCheck) Hn) as X.
    rewrite Hc0, Hc1, wc_set_owner in X. cbn [give_cost] in X. lia.
  - destruct (nth_error (s_batch s) j) as [t|] eqn:Et.
    2:{ apply nth_error_None in Et. unfold batch_workers in Hj. lia. }
    destruct (cs_check_give w t W) as (C1 & C2 & _). rewrite C1, C2 in H. injection H as <-.
    pose proof (cost_upd s j w (set_task w (Some t)) (MGive j CStore) Hn) as X. rewrite Hc0, Hc1, (wc_task w t W C2) in X.
    rewrite (nth_error_nth _ _ _ Et) in X. cbn [give_cost] in X. lia.
  - injection H as <-. pose proof (cost_upd s j w (set_state w HasWork) (MGive j CBroadcast) Hn) as X. rewrite Hc0, Hc1, wc_store_give in X. cbn [give_cost] in X.
    lia.
  - injection H as <-. pose proof (cost_upd s j w (wake w) (MGive j CUnlock) Hn) as X. rewrite Hc0, Hc1 in X. pose proof (wc_wake w). cbn [give_cost] in X. lia.
  - injection H as <-. pose proof (cost_upd s j w (set_owner w None) (MGive (S j) CLock) Hn) as X. rewrite Hc1, wc_set_owner in X.
    assert (X2 : pc_cost (with_pc s (MGive (S j) CLock)) = give_cost CLock (nth (S j) (s_batch s) []) + total (skipn (S (S j)) (s_batch s)) + todo_cost (s_todo s) + 10 * length (s_workers s) + 2) by reflexivity.
    rewrite X2 in X. cbn [give_cost] in X. assert (L : S j < length (s_batch s)) by (unfold batch_workers in Hj; lia).
    pose proof (total_skipn (s_batch s) (S j) L) as Y. unfold task in *. lia.
Qed.
Lemma del_dec program (s s' : state) j c : inv program s -> s_pc s = MDel j c -> j < length (s_workers s) ->
  change_state_step s j c ExitAsSoonAsPossible None (MDel j) (MJoin j) = Some s' -> cost s' < cost s.
Proof.
  intros I Epc Hj H. unfold change_state_step in H. destruct (nth_error (s_workers s) j) as [w|] eqn:Hn.
  2:{ apply nth_error_None in Hn. lia. }
  destruct (iv_w _ _ I j w Hn) as [W R]. rewrite Epc, view_del in W.
  assert (Hc0 : forall c', pc_cost (with_pc s (MDel j c')) = del_cost c' + 10 * (length (s_workers s) - S j) + 1).
  { intros c'. unfold pc_cost. cbn [with_pc s_pc s_workers]. apply Nat.ltb_lt in Hj. rewrite Hj. reflexivity. }
  assert (Hs : s = with_pc s (s_pc s)) by (destruct s; reflexivity).
  assert (Hc1 : pc_cost s = del_cost c + 10 * (length (s_workers s) - S j) + 1).
  { rewrite Hs at 1. rewrite Epc. apply Hc0. }
  destruct c.
  - destruct (w_owner w) eqn:Eo; [discriminate|]. injection H as <-. pose proof (cost_upd s j w (set_owner w (Some OCaller)) (MDel j CCheck) Hn) as X.
    rewrite Hc0, Hc1, wc_set_owner in X. cbn [del_cost] in X. lia.
  - destruct (cs_check_del w W) as (C1 & _). rewrite C1 in H. injection H as <-.
    pose proof (cost_upd s j w w (MDel j CStore) Hn) as X. rewrite Hc0, Hc1 in X. cbn [del_cost] in X. lia.
  - injection H as <-. pose proof (cost_upd s j w (set_state w ExitAsSoonAsPossible) (MDel j CBroadcast) Hn) as X. rewrite Hc0, Hc1, wc_store_give in X. cbn [del_cost] in X. lia.
  - injection H as <-. pose proof (cost_upd s j w (wake w) (MDel j CUnlock) Hn) as X. rewrite Hc0, Hc1 in X. pose proof (wc_wake w). cbn [del_cost] in X. lia.
  - injection H as <-. pose proof (cost_upd s j w (set_owner w None) (MJoin j) Hn) as X. rewrite Hc1, wc_set_owner in X.
    assert (X2 : pc_cost (with_pc s (MJoin j)) = 10 * (length (s_workers s) - S j) + 2) by reflexivity.
    rewrite X2 in X. cbn [del_cost] in X. lia.
Qed.
Lemma wcs_app l1 l2 : wcs (l1 ++ l2) = wcs l1 + wcs l2.
Proof. unfold wcs. rewrite map_app, list_sum_app. reflexivity. Qed.
Lemma cost_pc (s : state) pc' : cost (with_pc s pc') + pc_cost s = cost s + pc_cost (with_pc s pc').
Proof. unfold cost. cbn [with_pc s_workers]. lia. Qed.

Ltac cgen := unfold task in *; repeat match goal with
  | H : context [?a * (spins + 23)] |- _ => let q := fresh "q" in set (q := a * (spins + 23)) in *; clearbody q
  | |- context [?a * (spins + 23)] => let q := fresh "q" in set (q := a * (spins + 23)) in *; clearbody q
  end; lia.
Lemma caller_dec program (s s' : state) : inv program s -> inv program s' -> caller_step s = Some s' -> cost s' < cost s.
Proof.
  intros I I' H. pose proof (iv_pc _ _ I) as P. pose proof (iv_fail _ _ I') as F'.
  assert (Hs : s = with_pc s (s_pc s)) by (destruct s; reflexivity).
  assert (Hc : pc_cost s = pc_cost (with_pc s (s_pc s))) by (rewrite <- Hs; reflexivity).
  unfold caller_step in H. destruct (s_pc s) as [| | | | |j c|r| |j c|j|] eqn:Epc.
  - destruct (s_todo s) as [|b rest] eqn:Et.
    + injection H as <-. pose proof (cost_pc s (MDel 0 CLock)) as X. rewrite Hc in X. unfold pc_cost in X. cbn [with_pc s_pc s_workers s_todo s_batch] in X.
      rewrite Et in X. change (todo_cost []) with 0 in X. destruct (0 <? length (s_workers s)) eqn:E; cbn [del_cost] in X; [apply Nat.ltb_lt in E|]; lia.
    + destruct b as [|t b]; [injection H as <-; discriminate|]. injection H as <-. set (b' := t :: b) in *.
      unfold cost. cbn [s_workers]. rewrite Hc. unfold pc_cost, batch_workers. cbn [with_pc s_pc s_workers s_todo s_batch]. rewrite Et.
      change (todo_cost (b' :: rest)) with (total b' + 5 + length b' * (spins + 23) + todo_cost rest).
      assert ((length b' - 1 - length (s_workers s)) * (spins + 23) <= length b' * (spins + 23)) by (apply Nat.mul_le_mono_r; lia). cgen.
  - destruct (batch_workers s <=? length (s_workers s)) eqn:E.
    + injection H as <-. pose proof (cost_pc s MReset) as X. rewrite Hc in X. unfold pc_cost in X. cbn [with_pc s_pc s_workers s_todo s_batch] in X. cgen.
    + destruct (s_count s =? 0); [|injection H as <-; discriminate]. injection H as <-.
      unfold cost. cbn [with_pc with_count s_workers]. rewrite Hc. unfold pc_cost, batch_workers. cbn [with_pc with_count s_pc s_workers s_todo s_batch]. cgen.
  - destruct (length (s_workers s) <? batch_workers s) eqn:E.
    + injection H as <-. apply Nat.ltb_lt in E. unfold cost. cbn [with_workers s_workers]. rewrite wcs_app, Hc. unfold pc_cost, batch_workers in *. cbn [with_pc with_workers s_pc s_workers s_todo s_batch]. rewrite Epc.
      rewrite app_length. change (length [new_worker]) with 1. change (wcs [new_worker]) with (spins + 12 + 0).
      set (n := length (s_batch s) - 1) in *. set (z := length (s_workers s)) in *.
      replace (n - z) with (S (n - (z + 1))) by lia. cbn [Nat.mul]. cgen.
    + injection H as <-. pose proof (cost_pc s MCreateWait) as X. rewrite Hc in X. unfold pc_cost in X. cbn [with_pc s_pc s_workers s_todo s_batch] in X. cgen.
  - destruct (s_count s =? 0); [|discriminate]. injection H as <-. pose proof (cost_pc s MReset) as X. rewrite Hc in X. unfold pc_cost in X. cbn [with_pc s_pc s_workers s_todo s_batch] in X. cgen.
  - destruct (s_count s =? 0); [|injection H as <-; discriminate]. injection H as <-.
    unfold cost. cbn [with_pc with_count s_workers]. rewrite Hc. unfold pc_cost, batch_workers. cbn [with_pc with_count s_pc s_workers s_todo s_batch give_cost].
    assert (B : s_batch s <> []) by (apply (iv_batch _ _ I); rewrite Epc; reflexivity).
    assert (L : 0 < length (s_batch s)) by (destruct (s_batch s); [congruence|cbn; lia]).
    pose proof (total_skipn (s_batch s) 0 L) as Y. change (skipn 0 (s_batch s)) with (s_batch s) in Y. unfold task in *. lia.
  - destruct (j <? batch_workers s) eqn:E.
    + apply Nat.ltb_lt in E. eapply give_dec; eauto.
    + apply Nat.ltb_ge in E. cbn in P. assert (j = batch_workers s /\ c = CLock) as [-> ->] by (destruct P as [_ [?|?]]; [lia|assumption]).
      injection H as <-. pose proof (cost_pc s (MRun (last (s_batch s) []))) as X. rewrite Hc in X. unfold pc_cost in X. cbn [with_pc s_pc s_workers s_todo s_batch give_cost] in X.
      assert (B : s_batch s <> []) by (apply (iv_batch _ _ I); rewrite Epc; reflexivity).
      assert (EL : last (s_batch s) [] = nth (batch_workers s) (s_batch s) []).
      { unfold batch_workers. destruct (exists_last B) as (l' & x & ->). rewrite last_last, app_length. cbn. rewrite app_nth2 by lia. replace (length l' + 1 - 1 - length l') with 0 by lia. reflexivity. }
      rewrite EL in *. unfold task in *. lia.
  - destruct r as [|a r].
    + injection H as <-. pose proof (cost_pc s MWait) as X. rewrite Hc in X. unfold pc_cost in X. cbn [with_pc s_pc s_workers s_todo s_batch] in X. cgen.
    + injection H as <-. unfold cost. cbn [emit with_pc s_workers]. rewrite Hc. unfold pc_cost, batch_workers. cbn [emit with_pc s_pc s_workers s_todo s_batch length]. lia.
  - destruct (s_count s =? 0); [|discriminate]. injection H as <-. unfold cost. cbn [s_workers]. rewrite Hc. unfold pc_cost, batch_workers. cbn [with_pc s_pc s_workers s_todo s_batch]. lia.
  - destruct (j <? length (s_workers s)) eqn:E.
    + apply Nat.ltb_lt in E. eapply del_dec; eauto.
    + injection H as <-. pose proof (cost_pc s MEnd) as X. rewrite Hc in X. unfold pc_cost in X. cbn [with_pc s_pc s_workers s_todo s_batch] in X. cgen.
  - destruct (nth_error (s_workers s) j) as [w|] eqn:Hn; [|injection H as <-; discriminate].
    destruct (w_pc w); try discriminate. destruct (w_owner w); [injection H as <-; discriminate|]. injection H as <-.
    pose proof (cost_pc s (MDel (S j) CLock)) as X. rewrite Hc in X. unfold pc_cost in X. cbn [with_pc s_pc s_workers s_todo s_batch] in X.
    destruct (S j <? length (s_workers s)) eqn:E; cbn [del_cost] in X; [apply Nat.ltb_lt in E|]; lia.
  - discriminate.
Qed.

Lemma step_cost program (s : state) l s' : (forall b, In b program -> b <> []) -> inv program s -> step spins s l = Some s' ->
  if is_spurious l then cost s' = cost s + 4 else cost s' < cost s.
Proof.
  intros Hne I H. pose proof (inv_step _ _ _ _ Hne I H) as I'. unfold step in H. rewrite (iv_fail _ _ I) in H. destruct l as [|i|i]; cbn [is_spurious].
  - eapply caller_dec; eauto.
  - destruct (nth_error (s_workers s) i) as [w|] eqn:Hn; [|discriminate]. destruct (iv_w _ _ I i w Hn) as [W _].
    destruct (worker_dec s i w _ s' H W) as (w' & n & tr & -> & L).
    { intros Hp. rewrite (iv_count _ _ I). pose proof (pend_in _ _ _ Hn) as X. unfold p1 in X. rewrite Hp in X. lia. }
    unfold cost. rewrite pc_cost_upd. cbn [s_workers]. pose proof (wcs_upd _ _ _ w' Hn). lia.
  - destruct (nth_error (s_workers s) i) as [w|] eqn:Hn; [|discriminate]. destruct (w_pc w) eqn:Ew; try discriminate.
    injection H as <-. unfold cost. cbn [set_worker with_workers s_workers]. pose proof (wcs_upd _ _ _ (set_pc w WWake) Hn) as X.
    assert (wc (set_pc w WWake) = wc w + 4) by (unfold wc; rewrite Ew; cbn; lia).
    replace (pc_cost (set_worker s i (set_pc w WWake))) with (pc_cost s); [lia|]. symmetry. apply (pc_cost_upd s i (set_pc w WWake) (s_count s) (s_trace s)).
Qed.

Lemma cost_init program : cost (@init A program) = step_bound spins program.
Proof.
  unfold cost, pc_cost, init, step_bound. cbn [s_workers s_pc s_todo length]. change (wcs []) with 0.
  replace (todo_cost program) with (list_sum (map (fun b => 5 + list_sum (map (fun t : list A => length t + 2 * spins + 44) b)) program)); [lia|].
  unfold todo_cost. induction program as [|b p IH]; [reflexivity|]. cbn [map]. 
  change (list_sum (?x :: ?y)) with (x + list_sum y). rewrite IH. f_equal. clear.
  unfold total. induction b as [|t b IH]; [reflexivity|]. cbn [map length]. change (list_sum (?x :: ?y)) with (x + list_sum y). lia.
Qed.

Lemma run_bound program (s : state) ls s' : (forall b, In b program -> b <> []) -> inv program s -> run spins s ls s' ->
  cost s' + length (filter (fun l => negb (is_spurious l)) ls) <= cost s + 4 * length (filter is_spurious ls).
Proof.
  intros Hne I H. revert I. induction H as [|s l s1 ls s2 H1 H2 IH]; intros I; [cbn; lia|].
  pose proof (step_cost _ _ _ _ Hne I H1) as C. specialize (IH (inv_step _ _ _ _ Hne I H1)). cbn [filter]. destruct (is_spurious l); cbn [negb length]; lia.
Qed.

(* fair schedules *)
Lemma state_at_reachable program sched n : reachable spins program (state_at spins (@init A program) sched n).
Proof.
  induction n as [|n IH]; cbn; [apply r_init|]. destruct (step spins _ (sched n)) eqn:E; [eapply r_step; eauto|exact IH].
Qed.
Lemma fair_end program sched : (forall b, In b program -> b <> []) -> fair sched ->
  exists n, s_pc (state_at spins (@init A program) sched n) = MEnd.
Proof.
  intros Hne (F1 & F2 & n0 & F3).
  assert (Hinv : forall n, inv program (state_at spins (@init A program) sched n)) by (intros n; apply reachable_inv; [exact Hne|apply state_at_reachable]).
  assert (Hns : forall n, n0 <= n -> is_spurious (sched n) = false) by (intros n Hn; destruct (sched n) eqn:E; auto; exfalso; eapply F3; eauto).
  assert (Hk : forall n k, n0 <= n -> n <= k -> 
     let s1 := state_at spins (@init A program) sched n in let s2 := state_at spins (@init A program) sched k in s2 = s1 \/ cost s2 < cost s1).
  { intros n k Hn Hk. induction Hk as [|k Hk IH]; [left; reflexivity|]. cbv zeta in *. cbn [state_at].
    destruct (step spins (state_at spins (init program) sched k) (sched k)) as [s'|] eqn:E; [|exact IH].
    pose proof (step_cost _ _ _ _ Hne (Hinv k) E) as C. rewrite Hns in C by lia. right. destruct IH as [IH|IH]; [rewrite IH in C; exact C|lia]. }
  assert (G : forall c n, n0 <= n -> cost (state_at spins (@init A program) sched n) <= c -> exists m, s_pc (state_at spins (@init A program) sched m) = MEnd).
  { induction c as [|c IH]; intros n Hn Hc.
    all: assert (D : s_pc (state_at spins (@init A program) sched n) = MEnd \/ s_pc (state_at spins (@init A program) sched n) <> MEnd)
           by (destruct (s_pc (state_at spins (@init A program) sched n)); auto; right; discriminate).
    all: destruct D as [D|D]; [exists n; exact D|].
    all: destruct (progress program _ (Hinv n) D) as (l & s' & Hl & Hs).
    all: assert (exists k, n <= k /\ sched k = l) as (k & Hk1 & Hk2) by (destruct l; [apply F1|apply F2|discriminate]).
    all: assert (L : cost (state_at spins (@init A program) sched (S k)) < cost (state_at spins (@init A program) sched n)).
    1,3: destruct (Hk n k Hn Hk1) as [E|E]; [cbn [state_at]; rewrite E, Hk2, Hs; pose proof (step_cost _ _ _ _ Hne (Hinv n) Hs) as C; rewrite Hl in C; exact C|
           destruct (Hk k (S k) ltac:(lia) ltac:(lia)) as [E'|E']; [rewrite E'; exact E|lia]].
    - lia.
    - apply (IH (S k)); lia. }
  apply (G (cost (state_at spins (@init A program) sched n0)) n0); lia.
Qed.

(* no two threads use the same unprotected data of a worker at the same time *)
Lemma exclusive program (s : state) i w : inv program s -> nth_error (s_workers s) i = Some w -> held (w_pc w) = true -> view (s_pc s) i = None.
Proof. intros I Hn Hh. destruct (iv_w _ _ I i w Hn) as [(_ & W & _) _]. apply W. exact Hh. Qed.
End Proofs.
