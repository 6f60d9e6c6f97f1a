From Coq Require Import List Arith Bool Lia.
Import ListNotations.
From Verif Require Import GemmContract PoolModel PoolSpec.
Local Open Scope nat_scope.

Section Proofs.
Context {A : Type}.
Notation worker := (@worker A).
Notation state := (@state A).

(* what the caller is doing to worker i *)
Definition early (c : cpc) : bool := match c with CLock | CCheck | CStore => true | _ => false end.
Definition view (pc : @mpc A) (i : nat) : option (bool * cpc) :=
  match pc with
  | MGive j c => if i =? j then match c with CLock => None | _ => Some (false, c) end else None
  | MDel j c => if i =? j then match c with CLock => None | _ => Some (true, c) end else None
  | _ => None
  end.

Definition held (pc : @wpc A) : bool :=
  match pc with WCheck | WRun _ | WStore | WBroadcast | WUnlock | WWaitLoad | WWaitUnlock _ => true | _ => false end.
Definition wok (w : worker) (v : option (bool * cpc)) : Prop :=
  w_owner w = (if held (w_pc w) then Some OWorker else match v with Some _ => Some OCaller | None => None end) /\
  (held (w_pc w) = true -> v = None) /\
  match w_state w with
  | ThreadStartup =>
      v = None /\ w_task w = None /\ match w_pc w with WLock | WCheck | WStore => True | _ => False end
  | Ready =>
      match w_pc w with
      | WBroadcast | WUnlock | WDec => v = None /\ w_task w = None
      | WLoad _ | WWaitLock | WWaitLoad | WSleep | WWake =>
          match v with
          | None | Some (_, CCheck) | Some (true, CStore) => w_task w = None
          | Some (false, CStore) => w_task w <> None
          | _ => False
          end
      | _ => False
      end
  | HasWork =>
      match v with None | Some (false, CBroadcast) | Some (false, CUnlock) => True | _ => False end /\
      match w_pc w with
      | WLoad _ | WWaitLock | WWaitLoad | WWake | WLock | WCheck | WRun _ => w_task w <> None
      | WSleep => v = Some (false, CBroadcast) /\ w_task w <> None
      | WWaitUnlock x | WAct x => x = HasWork /\ w_task w <> None
      | WStore => w_task w = None
      | _ => False
      end
  | ExitAsSoonAsPossible =>
      match v with None | Some (true, CBroadcast) | Some (true, CUnlock) => True | _ => False end /\
      w_task w = None /\
      match w_pc w with
      | WLoad _ | WWaitLock | WWaitLoad | WWake | WDone => True
      | WSleep => v = Some (true, CBroadcast)
      | WWaitUnlock x | WAct x => x = ExitAsSoonAsPossible
      | _ => False
      end
  end.

(* the worker will decrement the counter before it can be given work *)
Definition is_pending (w : worker) : bool :=
  match w_state w with
  | ThreadStartup | HasWork => true
  | Ready => match w_pc w with WBroadcast | WUnlock | WDec => true | _ => false end
  | ExitAsSoonAsPossible => false
  end.
Definition idle (w : worker) : Prop := w_state w = Ready /\ is_pending w = false.
Definition p1 (w : worker) : nat := if is_pending w then 1 else 0.
Definition pend (ws : list worker) : nat := list_sum (map p1 ws).
(* what is left of the worker's task *)
Definition wrem (w : worker) : list A :=
  match w_pc w with WRun r => r | _ => match w_task w with Some t => t | None => [] end end.

(* one step of a worker *)
Lemma worker_step_ok spins s i w v s' :
  worker_step spins s i w = Some s' -> wok w v -> (is_pending w = true -> 0 < s_count s) ->
  exists w' n em,
    s' = mk_state (upd (s_workers s) i w') n (s_pc s) (s_batch s) (s_todo s) (s_returned s) (s_trace s ++ em) (s_failed s) /\
    wok w' v /\ n + p1 w = s_count s + p1 w' /\
    (idle w -> idle w') /\
    (w_state w' = w_state w \/ (w_state w' = Ready /\ (w_state w = ThreadStartup \/ w_state w = HasWork))) /\
    w_pc w <> WDone /\
    ((em = [] /\ wrem w' = wrem w) \/ (exists a, em = [(Worker i, a)] /\ wrem w = a :: wrem w' /\ w_state w = HasWork)).
Proof.
  intros H Hw Hp. destruct w as [st tk ow pc]. unfold wok in Hw. cbn [w_state w_task w_owner w_pc] in Hw.
  destruct Hw as (Ho & Hh & Hs).
  assert (E0 : forall w', set_worker s i w' = mk_state (upd (s_workers s) i w') (s_count s) (s_pc s) (s_batch s) (s_todo s) (s_returned s) (s_trace s ++ []) (s_failed s)).
  { intros w'. rewrite app_nil_r. reflexivity. }
  unfold worker_step in H. cbn [w_pc w_state w_owner w_task] in H.
  destruct pc; destruct st; cbn [held] in *; try contradiction; try (destruct Hs as (? & ? & ?); contradiction);
    try (destruct Hs as (? & ?); contradiction); try discriminate;
  try (match goal with H : context [match ?r with [] => _ | _ :: _ => _ end] |- _ => destruct r as [|a r] end);
  try (match goal with H : context [match s_count s with _ => _ end] |- _ => destruct (s_count s) as [|n] eqn:Ec; [exfalso; specialize (Hp eq_refl); lia|] end);
  try (match goal with H : context [match ?v with ThreadStartup => _ | _ => _ end] |- _ => is_var v; destruct v end);
  destruct v as [[[] []]|]; cbn in Hs; try contradiction; try (specialize (Hh eq_refl); discriminate);
       try (destruct Hs as (? & ? & ?); contradiction); try (destruct Hs as (? & ?); contradiction);
       try (destruct Hs as (? & ? & ?); discriminate); try (destruct Hs as (? & ?); discriminate);
  rewrite Ho in H; try discriminate;
  try (match goal with H : context [match tk with Some _ => _ | None => _ end] |- _ => destruct tk end);
  injection H as <-;
  try (match goal with
       | |- exists w' n em, emit (set_worker s i ?w) ?t ?a = _ /\ _ => exists w, (s_count s), [(t, a)]
       | |- exists w' n em, with_count (set_worker s i ?w) ?k = _ /\ _ => exists w, k, []; rewrite app_nil_r
       | |- exists w' n em, set_worker s i ?w = _ /\ _ => exists w, (s_count s), []; rewrite app_nil_r
       end; (split; [reflexivity|]));
  try (match goal with n : nat |- context [match ?n with O => WWaitLock | S _ => _ end] => destruct n end);
  cbn; unfold wok, idle, p1, is_pending, wrem; cbn;
       repeat match goal with H : _ /\ _ |- _ => destruct H end; subst; cbn;
  try (exfalso; congruence);
  repeat apply conj; try reflexivity; try lia; try congruence; try tauto; try (intros []; congruence); eauto 6.
Qed.

(* ------------------------------------------------------------------ *)
(* lists *)
Lemma length_upd {X} (l : list X) i x : length (upd l i x) = length l.
Proof. revert i; induction l as [|a l IH]; intros [|i]; cbn; auto. Qed.
Lemma nth_upd_same {X} (l : list X) i x y : nth_error l i = Some y -> nth_error (upd l i x) i = Some x.
Proof. revert i; induction l as [|a l IH]; intros [|i]; cbn; try discriminate; auto. Qed.
Lemma nth_upd_other {X} (l : list X) i j x : i <> j -> nth_error (upd l i x) j = nth_error l j.
Proof. revert i j; induction l as [|a l IH]; intros [|i] [|j] H; cbn; try congruence; auto. Qed.
Lemma upd_split {X} (l1 : list X) x y l2 : upd (l1 ++ x :: l2) (length l1) y = l1 ++ y :: l2.
Proof. induction l1 as [|a l1 IH]; cbn; [reflexivity|]. rewrite IH. reflexivity. Qed.
Lemma pend_upd ws i w w' : nth_error ws i = Some w -> pend (upd ws i w') + p1 w = pend ws + p1 w'.
Proof.
  intros H. destruct (nth_error_split _ _ H) as (l1 & l2 & -> & <-). rewrite upd_split. unfold pend. rewrite !map_app, !list_sum_app. cbn. lia.
Qed.
Lemma pend_in ws i w : nth_error ws i = Some w -> p1 w <= pend ws.
Proof.
  intros H. destruct (nth_error_split _ _ H) as (l1 & l2 & -> & <-). unfold pend. rewrite !map_app, !list_sum_app. cbn. lia.
Qed.
Lemma pend_zero ws : (forall i w, nth_error ws i = Some w -> is_pending w = false) -> pend ws = 0.
Proof.
  induction ws as [|w ws IH]; intros H; [reflexivity|]. change (pend (w :: ws)) with (p1 w + pend ws). rewrite IH.
  - unfold p1. rewrite (H 0 w eq_refl). reflexivity.
  - intros i x Hx. exact (H (S i) x Hx).
Qed.
Lemma firstn_upd_ge {X} (l : list X) n i x : n <= i -> firstn n (upd l i x) = firstn n l.
Proof. revert n i; induction l as [|a l IH]; intros [|n] [|i] H; cbn; try lia; auto. f_equal. apply IH. lia. Qed.
Lemma firstn_split {X} (l : list X) n i x : nth_error l i = Some x -> i < n ->
  exists l1 l2, length l1 = i /\ firstn n l = l1 ++ x :: l2 /\ forall y, firstn n (upd l i y) = l1 ++ y :: l2.
Proof.
  revert n i; induction l as [|a l IH]; intros [|n] [|i] H Hi; cbn in *; try discriminate; try lia.
  - injection H as ->. exists [], (firstn n l). auto.
  - destruct (IH n i H ltac:(lia)) as (l1 & l2 & E1 & E2 & E3). exists (a :: l1), l2. cbn. rewrite E1, E2. repeat split; auto. intros y. rewrite E3. reflexivity.
Qed.
Lemma firstn_snoc {X} (l : list X) n x : nth_error l n = Some x -> firstn (S n) l = firstn n l ++ [x].
Proof. revert n; induction l as [|a l IH]; intros [|n] H; cbn in *; try discriminate; [congruence|]. f_equal. apply IH. exact H. Qed.
Lemma skipn_cons {X} (l : list X) n x : nth_error l n = Some x -> skipn n l = x :: skipn (S n) l.
Proof. revert n; induction l as [|a l IH]; intros [|n] H; cbn in *; try discriminate; [congruence|]. apply IH. exact H. Qed.
Lemma skipn_last {X} (l : list X) d : l <> [] -> skipn (length l - 1) l = [last l d].
Proof.
  intros H. destruct (exists_last H) as (l' & x & ->). rewrite last_last, app_length. cbn. replace (length l' + 1 - 1) with (length l') by lia.
  rewrite skipn_app, skipn_all, Nat.sub_diag. reflexivity.
Qed.

(* ------------------------------------------------------------------ *)
(* tagged tasks *)
Lemma combine_app {X Y} (a1 a2 : list X) (b1 b2 : list Y) : length a1 = length b1 -> combine (a1 ++ a2) (b1 ++ b2) = combine a1 b1 ++ combine a2 b2.
Proof. revert b1; induction a1 as [|x a1 IH]; intros [|y b1] H; cbn in *; try discriminate; [reflexivity|]. f_equal. apply IH. lia. Qed.
Lemma assigned_split (l1 l2 : list (list A)) : exists X1 X2, forall t,
  assigned (l1 ++ t :: l2) = X1 ++ map (pair (runner (length l1 + S (length l2)) (length l1))) t :: X2.
Proof.
  set (n := length l1 + S (length l2)).
  set (f := fun p : nat * list A => map (pair (runner n (fst p))) (snd p)).
  exists (map f (combine (seq 0 (length l1)) l1)), (map f (combine (seq (S (length l1)) (length l2)) l2)).
  intros t. unfold assigned. rewrite app_length. cbn [length]. fold n. unfold n at 2. rewrite seq_app. cbn [seq Nat.add].
  rewrite combine_app by (rewrite seq_length; reflexivity).
  rewrite map_app. reflexivity.
Qed.
Lemma assigned_empty (l : list (list A)) : (forall t, In t l -> t = []) -> interleaving (assigned l) [].
Proof.
  intros H. apply il_done. intros x Hx. unfold assigned in Hx. apply in_map_iff in Hx. destruct Hx as ((i & t) & <- & Ht).
  apply in_combine_r in Ht. rewrite (H t Ht). reflexivity.
Qed.
Lemma interleaving_emit (l1 l2 : list (list A)) a t tr : 
  interleaving (assigned (l1 ++ t :: l2)) tr ->
  interleaving (assigned (l1 ++ (a :: t) :: l2)) ((runner (length l1 + S (length l2)) (length l1), a) :: tr).
Proof.
  destruct (assigned_split l1 l2) as (X1 & X2 & E). rewrite !E. cbn [map]. intros H. apply il_step. exact H.
Qed.
Lemma execution_app {X} (p1 p2 : list (list (list X))) t1 t2 : execution p1 t1 -> execution p2 t2 -> execution (p1 ++ p2) (t1 ++ t2).
Proof. intros H1 H2. induction H1; [exact H2|]. cbn. rewrite <- app_assoc. constructor; assumption. Qed.

(* ------------------------------------------------------------------ *)
(* the invariant *)
Definition role (pc : @mpc A) (n i : nat) (w : worker) : Prop :=
  match pc with
  | MIdle | MCreate | MReset => idle w
  | MSpawn | MCreateWait => w_state w = ThreadStartup \/ w_state w = Ready
  | MGive j c => (w_state w = HasWork \/ w_state w = Ready) /\ (j < i \/ (i = j /\ early c = true) -> idle w)
  | MRun _ | MWait => (w_state w = HasWork \/ w_state w = Ready) /\ (n <= i -> idle w)
  | MDel j c =>
      if i <? j then w_pc w = WDone
      else if i =? j then (if early c then idle w else w_state w = ExitAsSoonAsPossible) else idle w
  | MJoin j =>
      if i <? j then w_pc w = WDone else if i =? j then w_state w = ExitAsSoonAsPossible else idle w
  | MEnd => w_pc w = WDone
  end.
Definition extra (pc : @mpc A) (n size : nat) : nat :=
  match pc with
  | MSpawn => n - size
  | MGive j c => n - (if early c then j else S j)
  | _ => 0
  end.
Definition pc_ok (pc : @mpc A) (n size : nat) : Prop :=
  match pc with
  | MSpawn => size <= n
  | MCreateWait | MReset | MRun _ | MWait => n <= size
  | MGive j c => n <= size /\ (j < n \/ (j = n /\ c = CLock))
  | MDel j c => j < size \/ (j = size /\ c = CLock)
  | MJoin j => j < size
  | _ => True
  end.
Definition handed (j : nat) (c : cpc) : nat := match c with CLock | CCheck => j | _ => S j end.
Definition remaining (s : state) : list (list A) :=
  match s_pc s with
  | MGive j c => map wrem (firstn (handed j c) (s_workers s)) ++ skipn (handed j c) (s_batch s)
  | MRun r => map wrem (firstn (batch_workers s) (s_workers s)) ++ [r]
  | MWait => map wrem (firstn (batch_workers s) (s_workers s)) ++ [[]]
  | _ => s_batch s
  end.
Definition active (pc : @mpc A) : bool :=
  match pc with MIdle | MDel _ _ | MJoin _ | MEnd => false | _ => true end.

Record inv (program : list (list (list A))) (s : state) : Prop := mk_inv {
  iv_fail : s_failed s = false;
  iv_w : forall i w, nth_error (s_workers s) i = Some w ->
           wok w (view (s_pc s) i) /\ role (s_pc s) (batch_workers s) i w;
  iv_count : s_count s = pend (s_workers s) + extra (s_pc s) (batch_workers s) (length (s_workers s));
  iv_pc : pc_ok (s_pc s) (batch_workers s) (length (s_workers s));
  iv_prog : exists done, length done = s_returned s /\
      program = done ++ (if active (s_pc s) then [s_batch s] else []) ++ s_todo s /\
      exists tr1 tr2, s_trace s = tr1 ++ tr2 /\ execution (map assigned done) tr1 /\
        if active (s_pc s) then
          forall tr3, interleaving (assigned (remaining s)) tr3 -> interleaving (assigned (s_batch s)) (tr2 ++ tr3)
        else tr2 = [];
  iv_batch : active (s_pc s) = true -> s_batch s <> []
}.

Lemma role_pending pc n i w : wok w (view pc i) -> role pc n i w -> active pc = false -> is_pending w = false.
Proof.
  intros Hw Hr Ha. destruct pc; try discriminate; cbn [role] in Hr.
  - apply Hr.
  - assert (D : w_pc w = WDone -> is_pending w = false).
    { intros E. destruct Hw as (_ & _ & Hw). rewrite E in Hw. unfold is_pending. destruct (w_state w); rewrite ?E; try reflexivity; destruct Hw as (_ & Hw); try contradiction; destruct Hw; contradiction. }
    destruct (i <? i0); [auto|]. destruct (i =? i0); [|apply Hr]. destruct (early c); [apply Hr|]. unfold is_pending. rewrite Hr. reflexivity.
  - assert (D : w_pc w = WDone -> is_pending w = false).
    { intros E. destruct Hw as (_ & _ & Hw). rewrite E in Hw. unfold is_pending. destruct (w_state w); rewrite ?E; try reflexivity; destruct Hw as (_ & Hw); try contradiction; destruct Hw; contradiction. }
    destruct (i <? i0); [auto|]. destruct (i =? i0); [|apply Hr]. unfold is_pending. rewrite Hr. reflexivity.
  - destruct Hw as (_ & _ & Hw). rewrite Hr in Hw. unfold is_pending. destruct (w_state w); rewrite ?Hr; try reflexivity; destruct Hw as (_ & Hw); try contradiction; destruct Hw; contradiction.
Qed.

Lemma role_step pc n i w w' : role pc n i w -> (idle w -> idle w') ->
  (w_state w' = w_state w \/ (w_state w' = Ready /\ (w_state w = ThreadStartup \/ w_state w = HasWork))) ->
  w_pc w <> WDone -> role pc n i w'.
Proof.
  intros Hr Hi Hs Hd. destruct pc; cbn [role] in *; auto.
  - intuition congruence.
  - intuition congruence.
  - destruct Hr as [Hr1 Hr2]. split; [intuition congruence|auto].
  - destruct Hr as [Hr1 Hr2]. split; [intuition congruence|auto].
  - destruct Hr as [Hr1 Hr2]. split; [intuition congruence|auto].
  - destruct (i <? i0); [contradiction|]. destruct (i =? i0); [|auto]. destruct (early c); [auto|]. intuition congruence.
  - destruct (i <? i0); [contradiction|]. destruct (i =? i0); [|auto]. intuition congruence.
  - contradiction.
Qed.

Lemma map_wrem_upd ws n i w w' : nth_error ws i = Some w -> wrem w' = wrem w ->
  map wrem (firstn n (upd ws i w')) = map wrem (firstn n ws).
Proof.
  intros H E. destruct (le_lt_dec n i) as [L|L]; [rewrite firstn_upd_ge by exact L; reflexivity|].
  destruct (firstn_split ws n i w H L) as (l1 & l2 & _ & E2 & E3). rewrite E2, E3, !map_app. cbn. rewrite E. reflexivity.
Qed.
Lemma length_remaining program s : inv program s -> active (s_pc s) = true -> length (remaining s) = length (s_batch s).
Proof.
  intros I Ha. pose proof (iv_pc _ _ I) as P. pose proof (iv_batch _ _ I Ha) as B.
  assert (0 < length (s_batch s)) by (destruct (s_batch s); [congruence|cbn; lia]). unfold remaining, batch_workers in *.
  destruct (s_pc s); try reflexivity; cbn in P; rewrite app_length, map_length, firstn_length.
  - rewrite skipn_length. destruct P as [P1 [P2|[P2 P3]]]; destruct c; cbn [handed]; try discriminate; lia.
  - cbn. lia.
  - cbn. lia.
Qed.

Lemma inv_worker program spins s i w s' : inv program s -> nth_error (s_workers s) i = Some w ->
  worker_step spins s i w = Some s' -> inv program s'.
Proof.
  intros I Hn H. destruct (iv_w _ _ I i w Hn) as [Hw Hr].
  assert (Hp : is_pending w = true -> 0 < s_count s).
  { intros Hp. rewrite (iv_count _ _ I). pose proof (pend_in _ _ _ Hn) as X. unfold p1 in X. rewrite Hp in X. lia. }
  destruct (worker_step_ok spins s i w _ s' H Hw Hp) as (w' & n & em & -> & Hw' & Hc & Hi & Hst & Hd & Hem).
  assert (Hlen : length (upd (s_workers s) i w') = length (s_workers s)) by apply length_upd.
  constructor; cbn [s_failed s_workers s_count s_pc s_batch s_todo s_returned s_trace]; unfold batch_workers; cbn [s_batch];
    change (length (s_batch s) - 1) with (batch_workers s).
  - apply (iv_fail _ _ I).
  - intros j x Hx. destruct (Nat.eq_dec i j) as [<-|Ne].
    + rewrite (nth_upd_same _ _ _ _ Hn) in Hx. injection Hx as <-. split; [exact Hw'|]. eapply role_step; eauto.
    + rewrite nth_upd_other in Hx by exact Ne. apply (iv_w _ _ I j x Hx).
  - rewrite Hlen. pose proof (pend_upd _ _ _ w' Hn). pose proof (iv_count _ _ I). lia.
  - rewrite Hlen. apply (iv_pc _ _ I).
  - destruct (iv_prog _ _ I) as (done & D1 & D2 & tr1 & tr2 & T1 & T2 & T3). exists done. split; [exact D1|]. split; [exact D2|].
    destruct Hem as [[-> Hrem]|(a & -> & Hrem & HS)].
    + exists tr1, tr2. rewrite app_nil_r. split; [exact T1|]. split; [exact T2|]. destruct (active (s_pc s)) eqn:Ha; [|exact T3].
      intros tr3 H3. apply T3. unfold remaining in *. cbn [s_pc s_workers s_batch] in H3. unfold batch_workers in *. cbn [s_batch] in H3.
      destruct (s_pc s); try exact H3; rewrite (map_wrem_upd _ _ _ _ _ Hn Hrem) in H3; exact H3.
    + (* the worker performs an action of its task *)
      assert (Hnid : ~ idle w) by (intros [X _]; congruence).
      destruct (active (s_pc s)) eqn:Ha.
      * exists tr1, (tr2 ++ [(Worker i, a)]). split; [rewrite T1, app_assoc; reflexivity|]. split; [exact T2|].
        intros tr3 H3. rewrite <- app_assoc. cbn [app]. apply T3.
        pose proof (length_remaining _ _ I Ha) as LR. pose proof (iv_pc _ _ I) as P.
        pose proof (iv_batch _ _ I Ha) as B. assert (0 < length (s_batch s)) by (destruct (s_batch s); [congruence|cbn; lia]).
        assert (exists m tl, i < m /\ m <= batch_workers s /\ remaining s = map wrem (firstn m (s_workers s)) ++ tl /\
          remaining (mk_state (upd (s_workers s) i w') n (s_pc s) (s_batch s) (s_todo s) (s_returned s) (s_trace s ++ [(Worker i, a)]) (s_failed s))
            = map wrem (firstn m (upd (s_workers s) i w')) ++ tl) as (m & tl & Lm & Lb & E1 & E2).
        { unfold remaining in *. cbn [s_pc s_workers s_batch]. unfold batch_workers in *. cbn [s_batch]. destruct (s_pc s) as [| | | | |j c|r| | | |]; cbn in Hr, P; try discriminate; try (exfalso; tauto);
            try (exfalso; destruct Hr; congruence).
          - exists (handed j c), (skipn (handed j c) (s_batch s)). split; [|split; [|split; reflexivity]].
            + destruct Hr as [_ Hr]. destruct (lt_eq_lt_dec i j) as [[?|?]|?]; [destruct c; cbn; lia| |exfalso; apply Hnid; apply Hr; left; lia].
              destruct (early c) eqn:Ec; [exfalso; apply Hnid; apply Hr; right; auto|]. destruct c; cbn in *; try discriminate; lia.
            + destruct c; cbn; destruct P as [_ [?|[? ?]]]; try discriminate; try lia.
          - exists (length (s_batch s) - 1), [r]. split; [|split; [lia|split; reflexivity]]. destruct Hr as [_ Hr]. destruct (le_lt_dec (length (s_batch s) - 1) i); [exfalso; tauto|lia].
          - exists (length (s_batch s) - 1), [[]]. split; [|split; [lia|split; reflexivity]]. destruct Hr as [_ Hr]. destruct (le_lt_dec (length (s_batch s) - 1) i); [exfalso; tauto|lia]. }
        rewrite E2 in H3. rewrite E1. rewrite E1 in LR.
        destruct (firstn_split _ m i w Hn Lm) as (l1 & l2 & F1 & F2 & F3). rewrite F3 in H3. rewrite F2 in *.
        rewrite !map_app in *. cbn [map] in *. rewrite <- !app_assoc in *. cbn [app] in *. rewrite Hrem in *.
        pose proof (interleaving_emit (map wrem l1) (map wrem l2 ++ tl) a (wrem w') tr3 H3) as Q.
        replace (runner (length (map wrem l1) + S (length (map wrem l2 ++ tl))) (length (map wrem l1))) with (Worker i) in Q; [exact Q|].
        rewrite app_length in LR. cbn [length] in LR. rewrite LR. rewrite map_length, F1. unfold runner.
        destruct (S i =? length (s_batch s)) eqn:Eq; [|reflexivity]. apply Nat.eqb_eq in Eq. unfold batch_workers in Lb. lia.
      * exfalso. pose proof (role_pending _ _ _ _ Hw Hr Ha) as X. unfold is_pending in X. rewrite HS in X. discriminate.
  - apply (iv_batch _ _ I).
Qed.
End Proofs.
