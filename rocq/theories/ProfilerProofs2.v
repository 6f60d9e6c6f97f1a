(* ProfilerProofs2.v: stacks, the set of threads and the samples follow the
   events. *)
From Verif Require Import Base BaseLemmas ProfilerModel ProfilerSpec ProfilerProofs.

Definition content (k : info) : list Z := map (fun n => k_labels k (Z.of_nat n)) (seq 0 (Z.to_nat (k_size k))).
Definition events (e : option event) : list event := match e with Some e => [e] | None => [] end.

Lemma ops_of_app i a b : ops_of i (a ++ b) = ops_of i a ++ ops_of i b. Proof. apply flat_map_app. Qed.
Lemma labels_after_snoc l o : labels_after (l ++ [o]) = apply_op (labels_after l) o.
Proof. unfold labels_after. rewrite fold_left_app. reflexivity. Qed.
Lemma registered_snoc tr e : registered (tr ++ [e]) = apply_registration (registered tr) e.
Proof. unfold registered. rewrite fold_left_app. reflexivity. Qed.
Lemma samples_snoc tr e : samples (tr ++ [e]) = apply_sample (samples tr) e.
Proof. unfold samples. rewrite fold_left_app. reflexivity. Qed.
Lemma sampled_app a b : sampled_threads (a ++ b) = sampled_threads a ++ sampled_threads b. Proof. apply flat_map_app. Qed.

Lemma content_length k : length (content k) = Z.to_nat (k_size k).
Proof. unfold content. rewrite map_length, seq_length. reflexivity. Qed.
Lemma content_ext k k' : k_size k' = k_size k -> (forall n, 0 <= n < k_size k -> k_labels k' n = k_labels k n) -> content k' = content k.
Proof.
  intros E H. unfold content. rewrite E. apply map_ext_in. intros n Hn. apply in_seq in Hn. apply H. lia.
Qed.
Lemma content_push k k' : 0 <= k_size k -> k_size k' = k_size k + 1 -> (forall n, 0 <= n < k_size k -> k_labels k' n = k_labels k n) ->
  content k' = content k ++ [k_labels k' (k_size k)].
Proof.
  intros P E H. unfold content. rewrite E. replace (Z.to_nat (k_size k + 1)) with (Z.to_nat (k_size k) + 1)%nat by lia.
  rewrite seq_app, map_app. f_equal.
  - apply map_ext_in. intros n Hn. apply in_seq in Hn. apply H. lia.
  - cbn. rewrite Z2Nat.id by exact P. reflexivity.
Qed.
Lemma content_pop k k' : 0 < k_size k -> k_size k' = k_size k - 1 -> (forall n, 0 <= n < k_size k - 1 -> k_labels k' n = k_labels k n) ->
  content k' = removelast (content k).
Proof.
  intros P E H. rewrite (content_push k' k); [rewrite removelast_last; reflexivity|lia|lia|]. intros n Hn. symmetry. apply H. lia.
Qed.
Lemma content_nth k n : 0 <= n < k_size k -> nth_error (content k) (Z.to_nat n) = Some (k_labels k n).
Proof.
  intros H. unfold content. rewrite nth_error_map.
  rewrite (nth_error_nth' _ 0%nat) by (rewrite seq_length; lia). rewrite seq_nth by lia. cbn. f_equal. f_equal. lia.
Qed.

Definition expected (tr : list event) (i : Z) (t : thread) : list Z :=
  match t_pc t, t_ops t with
  | Unlocking, o :: _ => apply_op (labels_after (ops_of i tr)) o
  | _, _ => labels_after (ops_of i tr)
  end.
Record stacks_ok (programs : Z -> list op) (tr : list event) (s : state) : Prop := {
  k_prog : forall i, programs i = ops_of i tr ++ t_ops (s_thread s i);
  k_pos : forall i, 0 <= k_size (s_info s i);
  k_content : forall i, content (s_info s i) = expected tr i (s_thread s i);
  k_stored : forall i l ops, s_thread s i = mk_thread Stored (OPush l :: ops) -> k_labels (s_info s i) (k_size (s_info s i)) = l }.
Lemma stacks_init programs : stacks_ok programs [] (init programs).
Proof. constructor; cbn; try reflexivity; try lia. discriminate. Qed.
(* a step of thread i does not concern the others *)
Lemma stacks_app programs tr s e s' i : stacks_ok programs tr s ->
  (forall j, j <> i -> s_thread s' j = s_thread s j) ->
  (forall j, j <> i -> s_info s' j = s_info s j) ->
  (forall j, j <> i -> flat_map (op_by j) (events e) = []) ->
  (t_ops (s_thread s i) = flat_map (op_by i) (events e) ++ t_ops (s_thread s' i)) ->
  0 <= k_size (s_info s' i) -> content (s_info s' i) = expected (tr ++ events e) i (s_thread s' i) ->
  (forall l ops, s_thread s' i = mk_thread Stored (OPush l :: ops) -> k_labels (s_info s' i) (k_size (s_info s' i)) = l) ->
  stacks_ok programs (tr ++ events e) s'.
Proof.
  intros [P Z0 C S] ET EI EE EP H1 H2 H3.
  assert (EO : forall j, j <> i -> ops_of j (tr ++ events e) = ops_of j tr).
  { intros j N. rewrite ops_of_app. unfold ops_of at 2. rewrite EE, app_nil_r by exact N. reflexivity. }
  constructor; intros j; (destruct (Z.eq_dec j i) as [-> | N]; [| rewrite ?ET, ?EI by exact N]).
  - rewrite ops_of_app, <- app_assoc, P, EP. reflexivity.
  - rewrite EO by exact N. apply P.
  - exact H1.
  - apply Z0.
  - exact H2.
  - rewrite C. unfold expected. rewrite EO by exact N. reflexivity.
  - exact H3.
  - apply S.
Qed.
(* nor does a step of the profiler concern any thread *)
Lemma stacks_prof programs tr s e s' : stacks_ok programs tr s ->
  (forall j, s_thread s' j = s_thread s j) ->
  (forall j, k_labels (s_info s' j) = k_labels (s_info s j) /\ k_size (s_info s' j) = k_size (s_info s j)) ->
  (forall j, flat_map (op_by j) (events e) = []) -> stacks_ok programs (tr ++ events e) s'.
Proof.
  intros [P Z0 C S] ET EI EE.
  assert (EO : forall j, ops_of j (tr ++ events e) = ops_of j tr).
  { intros j. rewrite ops_of_app. unfold ops_of at 2. rewrite EE, app_nil_r. reflexivity. }
  constructor; intros j; destruct (EI j) as [E1 E2]; rewrite ?ET, ?E1, ?E2, ?EO.
  - apply P.
  - apply Z0.
  - unfold content. rewrite E1, E2. fold (content (s_info s j)). rewrite C. unfold expected. rewrite EO. reflexivity.
  - apply S.
Qed.
Lemma stacks_step programs d tr s a e s' : case d s a e s' -> stacks_ok programs tr s -> locks s -> stacks_ok programs (tr ++ events e) s'.
Proof.
  intros C K L. destruct C.
  1-20: pose proof (l_wf _ L i) as Wi; rewrite H in Wi; unfold wf in Wi; cbn [t_pc t_ops] in Wi;
    pose proof (k_pos _ _ _ K i) as Pi; pose proof (k_content _ _ _ K i) as Ci; unfold expected in Ci; rewrite H in Ci; cbn [t_pc t_ops] in Ci;
    apply (stacks_app programs tr s _ _ i K); simpl_state; rewrite ?H; at_i; intros; rewrite ?upd_other by assumption; try reflexivity;
    try (cbn; rewrite neq_eqb by congruence; reflexivity); cbn [events flat_map op_by app]; rewrite ?Z.eqb_refl; try reflexivity; try lia;
    try match goal with |- context [negb (k_alive ?k)] => destruct (k_alive k); cbn [negb] end;
    try match goal with |- context [if ?d then _ else _] => is_var d; destruct d end;
    unfold expected; cbn [t_pc t_ops app]; rewrite ?app_nil_r, ?ops_of_app; cbn [ops_of flat_map op_by app]; rewrite ?Z.eqb_refl; cbn [app];
    rewrite ?labels_after_snoc; try assumption; try congruence.
  - (* exit events *) rewrite app_nil_r. exact Ci.
  - rewrite app_nil_r. exact Ci.
  - rewrite <- Ci. apply content_ext; [reflexivity|]. intros n Hn. cbn. apply upd_other. lia.
  - rewrite upd_same. congruence.
  - cbn [apply_op]. rewrite <- Ci, <- (k_stored _ _ _ K i l ops H).
    rewrite (content_push (s_info s i)); [reflexivity|exact Pi|reflexivity|reflexivity].
  - cbn [apply_op]. rewrite <- Ci. apply content_pop; [exact H0|reflexivity|reflexivity].
  - cbn [apply_op]. rewrite <- Ci. assert (P1 : 0 < k_size (s_info s i)) by lia.
    set (k := s_info s i) in *.
    rewrite <- (content_pop k (mk_info (k_labels k) (k_size k - 1) None true)) by (reflexivity || exact P1).
    rewrite (content_push (mk_info (k_labels k) (k_size k - 1) None true)); cbn [k_size k_labels]; [|lia|lia|intros n Hn; apply upd_other; lia].
    rewrite upd_same. reflexivity.
  - destruct ops as [|[] ops]; try contradiction. reflexivity.
  - apply (stacks_prof _ _ s); [exact K| | |]; intros; simpl_state; auto.
  - apply (stacks_prof _ _ s); [exact K| | |]; intros; simpl_state; auto.
  - apply (stacks_prof _ _ s); [exact K| | |]; intros; simpl_state; auto.
  - apply (stacks_prof _ _ s); [exact K| | |]; intros; simpl_state; auto. unfold upd. destruct (Z.eqb_spec j t) as [-> |]; auto.
  - apply (stacks_prof _ _ s); [exact K| | |]; intros; simpl_state; auto.
  - apply (stacks_prof _ _ s); [exact K| | |]; intros; simpl_state; auto. unfold upd. destruct (Z.eqb_spec j t) as [-> |]; auto.
  - apply (stacks_prof _ _ s); [exact K| | |]; intros; simpl_state; auto.
Qed.

(* the set of threads *)
Definition expected_set (tr : list event) (s : state) : list Z :=
  match s_plock s with
  | Some (App i) =>
    match t_pc (s_thread s i), t_ops (s_thread s i) with
    | Unlocking, ORegister :: _ => insert i (registered tr)
    | XUnlocking, _ => erase i (registered tr)
    | _, _ => registered tr
    end
  | _ => registered tr
  end.
Lemma set_step d tr s a e s' : case d s a e s' -> locks s -> s_set s = expected_set tr s -> s_set s' = expected_set (tr ++ events e) s'.
Proof.
  intros C L E. destruct C; cbn [events]; rewrite ?app_nil_r.
  1-20: pose proof (l_wf _ L i) as Wi; rewrite H in Wi; unfold wf in Wi; cbn [t_pc t_ops] in Wi;
    pose proof (l_p _ L i) as Pi; rewrite H in Pi; unfold holds_p in Pi; cbn [t_pc t_ops] in Pi.
  all: unfold expected_set in *; simpl_state; rewrite ?registered_snoc; cbn [apply_registration].
  all: try (specialize (Pi eq_refl); rewrite Pi in *).
  all: try match goal with H : s_plock _ = None |- _ => rewrite H in * end.
  all: try match goal with |- context [s_plock ?x] => destruct (s_plock x) as [[j|]|] eqn:Q end; try match goal with _ : s_plock _ = Some (App ?j), _ : s_thread _ ?i = mk_thread _ _ |- _ => destruct (Z.eq_dec j i) as [-> |] end.
  all: rewrite ?upd_same, ?upd_other, ?H in * by assumption; cbn [t_pc t_ops] in *; try assumption; try congruence.
  - destruct (k_alive (s_info s i)), d; exact E.
  - destruct d; exact E.
  - destruct o; try discriminate; exact E.
  - destruct o; try discriminate; exact E.
  - destruct o; try discriminate; exact E.
  - rewrite H0 in Pi. rewrite (Pi eq_refl), H in E. cbn [t_pc t_ops] in E. destruct o; exact E.
  - assert (Pp : s_plock s = Some Prof) by (apply (l_pp _ L); rewrite H; reflexivity). rewrite Pp in E. exact E.
Qed.

(* the profiler's list of threads still to do, and its copy of a stack *)
Definition tick_state (tr : list event) (s : state) (todo : list Z) : Prop :=
  exists t1 t2, tr = t1 ++ ETick :: t2 /\ forallb (fun e => negb (tick_event e)) t2 = true /\
    registered t1 = sampled_threads t2 ++ todo /\ s_set s = registered t1.
Definition ticks_ok (tr : list event) (s : state) : Prop :=
  match s_prof s with
  | PIter todo _ => tick_state tr s todo
  | PCopy t todo dst _ => tick_state tr s (t :: todo) /\ dst = firstn (length dst) (content (s_info s t)) /\ Z.of_nat (length dst) <= k_size (s_info s t)
  | _ => True
  end.
Lemma tick_quiet tr s e s' todo : tick_state tr s todo -> s_set s' = s_set s ->
  (forall x, e = Some x -> tick_event x = false /\ sampled_threads [x] = []) -> tick_state (tr ++ events e) s' todo.
Proof.
  intros (t1 & t2 & E1 & E2 & E3 & E4) ES EE. exists t1, (t2 ++ events e). split; [rewrite E1, <- app_assoc; reflexivity|].
  destruct e as [x|]; cbn [events]; [|rewrite app_nil_r, ES; auto]. destruct (EE x eq_refl) as [Q1 Q2].
  rewrite forallb_app, E2, sampled_app, Q2, app_nil_r, ES. cbn [forallb]. rewrite Q1. auto.
Qed.
(* steps of application threads while the profiler has the profiler lock *)
Lemma ticks_app tr s e s' : ticks_ok tr s -> s_prof s' = s_prof s ->
  (prof_p (s_prof s) = true -> s_set s' = s_set s) ->
  (forall t, prof_stack (s_prof s) t = true -> content (s_info s' t) = content (s_info s t) /\ k_size (s_info s' t) = k_size (s_info s t)) ->
  (forall x, e = Some x -> tick_event x = false /\ sampled_threads [x] = []) -> ticks_ok (tr ++ events e) s'.
Proof.
  intros T EP ES EC EE. unfold ticks_ok in *. rewrite EP. destruct (s_prof s) as [| | | todo stacks | t todo dst stacks | |]; try exact I.
  - apply (tick_quiet tr s); auto.
  - destruct T as (T1 & T2 & T3). destruct (EC t) as [C1 C2]; [apply Z.eqb_refl|]. rewrite C1, C2. split; [|auto]. apply (tick_quiet tr s); auto.
Qed.
Lemma firstn_snoc {A} (l : list A) n x : nth_error l n = Some x -> firstn (S n) l = firstn n l ++ [x].
Proof. revert n. induction l as [|y l IH]; intros [|n] H; try discriminate; cbn in *; [congruence|]. f_equal. apply IH, H. Qed.
Lemma ticks_step programs d tr s a e s' : case d s a e s' -> locks s -> stacks_ok programs tr s -> s_set s = expected_set tr s ->
  ticks_ok tr s -> ticks_ok (tr ++ events e) s'.
Proof.
  intros C L K E T.
  assert (Own : forall i, holds_p (s_thread s i) = true -> prof_p (s_prof s) = true -> False).
  { intros i H1 H2. apply (l_p _ L) in H1. apply (l_pp _ L) in H2. congruence. }
  assert (OwnS : forall i, holds_stack (s_thread s i) = true -> prof_stack (s_prof s) i = true -> False).
  { intros i H1 H2. apply (l_excl _ L) in H1. congruence. }
  destruct C.
  (* application threads *)
  1-13,15-16,18-20: pose proof (Own i) as Oi; pose proof (OwnS i) as Si; rewrite H in Oi, Si; unfold holds_p, holds_stack in Oi, Si; cbn [t_pc t_ops on_stack negb] in Oi, Si;
    apply (ticks_app tr s); simpl_state; [exact T|reflexivity| | |]; intros;
    try reflexivity; try (exfalso; apply Oi; auto; fail); try discriminate; auto;
    try match goal with Hx : Some _ = Some ?x |- _ => injection Hx as <-; auto end;
    try (unfold upd; match goal with |- context [?t =? ?j] => destruct (Z.eqb_spec t j) as [-> |]; auto; exfalso; apply Si; auto; fail end).
  - exact I.
  - exact I.
  - unfold ticks_ok. simpl_state. destruct (s_should s); exact I.
  - unfold ticks_ok. simpl_state. exists tr, []. cbn [events sampled_threads flat_map app]. split; [reflexivity|]. split; [reflexivity|].
    unfold expected_set in E. rewrite H0 in E. rewrite E. auto.
  - exact I.
  - unfold ticks_ok in *. simpl_state. rewrite H in T. cbn [length firstn]. split; [|split; [reflexivity|]].
    + cbn [events]. rewrite app_nil_r. exact T.
    + rewrite upd_same. cbn [k_size]. pose proof (k_pos _ _ _ K t). cbn. lia.
  - unfold ticks_ok in *. simpl_state. rewrite H in T. destruct T as (T1 & T2 & T3). cbn [events]. rewrite app_nil_r.
    split; [exact T1|]. rewrite app_length. cbn [length]. replace (length dst + 1)%nat with (S (length dst)) by lia. split; [|lia].
    rewrite (firstn_snoc _ _ (k_labels (s_info s t) (Z.of_nat (length dst)))); [congruence|].
    rewrite <- (Nat2Z.id (length dst)) at 1. apply content_nth. lia.
  - unfold ticks_ok in *. simpl_state. rewrite H in T. destruct T as ((t1 & t2 & E1 & E2 & E3 & E4) & T2 & T3).
    exists t1, (t2 ++ [ESample t dst]). cbn [events]. split; [rewrite E1, <- app_assoc; reflexivity|].
    rewrite forallb_app, E2, sampled_app. split; [reflexivity|]. split; [|exact E4]. cbn. rewrite <- app_assoc. exact E3.
  - exact I.
Qed.

(* StartProfiling and FinishProfiling *)
Definition stacks_of (p : pstate) : option (list (list Z)) :=
  match p with PTest l | PTick l | PIter _ l | PCopy _ _ _ l | PReport l => Some l | _ => None end.
Definition running (p : pstate) : bool := match p with PTest _ | PTick _ | PIter _ _ | PCopy _ _ _ _ => true | _ => false end.
Definition control_state (ctl : Z) (tr : list event) (s : state) : Prop :=
  let c := profiling_after (ops_of ctl tr) in
  match t_pc (s_thread s ctl), t_ops (s_thread s ctl) with
  | Stored, OStart :: _ => s_is_prof s = true /\ s_prof s = PNone
  | Unlocking, OStart :: _ => s_is_prof s = true /\ s_should s = false /\ (s_prof s = PTest [] \/ s_prof s = PTick [])
  | Unlocking, OFinish :: _ | Joining, _ =>
    s_is_prof s = true /\ s_should s = true /\ s_prof s <> PNone /\ (forall l, stacks_of (s_prof s) = Some l -> l = samples tr)
  | Joined, _ => s_is_prof s = true /\ s_prof s = PNone
  | _, _ =>
    s_is_prof s = c /\
    if c then s_should s = false /\ running (s_prof s) = true /\ (forall l, stacks_of (s_prof s) = Some l -> l = samples tr)
    else s_prof s = PNone
  end.
Lemma profiling_snoc l o : profiling_after (l ++ [o]) = apply_control (profiling_after l) o.
Proof. unfold profiling_after. rewrite fold_left_app. reflexivity. Qed.
Lemma control_other ctl tr s e s' i : i <> ctl -> control_state ctl tr s -> s_thread s' ctl = s_thread s ctl ->
  s_is_prof s' = s_is_prof s -> s_should s' = s_should s -> s_prof s' = s_prof s ->
  (forall x, e = Some x -> op_by ctl x = [] /\ apply_sample (samples tr) x = samples tr) -> control_state ctl (tr ++ events e) s'.
Proof.
  intros N C E1 E2 E3 E4 E5. unfold control_state in *. rewrite E1, E2, E3, E4.
  assert (Eo : ops_of ctl (tr ++ events e) = ops_of ctl tr).
  { rewrite ops_of_app. destruct e as [x|]; cbn [events ops_of flat_map]; [rewrite (proj1 (E5 x eq_refl))|]; apply app_nil_r. }
  assert (Es : samples (tr ++ events e) = samples tr).
  { destruct e as [x|]; cbn [events]; [|rewrite app_nil_r; reflexivity]. rewrite samples_snoc. apply E5. reflexivity. }
  rewrite Eo, Es. exact C.
Qed.
Lemma control_prof ctl tr s e s' : control_state ctl tr s -> s_thread s' ctl = s_thread s ctl -> 
  s_is_prof s' = s_is_prof s -> s_should s' = s_should s ->
  (running (s_prof s) = true \/ stacks_of (s_prof s) <> None) -> s_prof s' <> PNone ->
  (s_should s = false -> running (s_prof s) = true -> running (s_prof s') = true) ->
  (forall i ops, i = ctl -> s_thread s i = mk_thread Unlocking (OStart :: ops) -> s_should s = false -> s_prof s = PTest [] \/ s_prof s = PTick [] ->
     s_prof s' = PTest [] \/ s_prof s' = PTick []) ->
  (forall x, e = Some x -> op_by ctl x = []) ->
  (forall l', stacks_of (s_prof s') = Some l' -> exists l, stacks_of (s_prof s) = Some l /\ (l = samples tr -> l' = samples (tr ++ events e))) ->
  control_state ctl (tr ++ events e) s'.
Proof.
  intros T E1 E2 E3 R N Rn St E5 Sm. unfold control_state in *. rewrite E1, E2, E3.
  assert (Eo : ops_of ctl (tr ++ events e) = ops_of ctl tr).
  { rewrite ops_of_app. destruct e as [x|]; cbn [events ops_of flat_map]; [rewrite (E5 x eq_refl)|]; apply app_nil_r. }
  rewrite Eo.
  assert (NP : s_prof s = PNone -> False) by (intros F; rewrite F in R; destruct R; cbn in *; congruence).
  assert (Sm2 : (forall l, stacks_of (s_prof s) = Some l -> l = samples tr) -> forall l, stacks_of (s_prof s') = Some l -> l = samples (tr ++ events e)).
  { intros A l Hl. destruct (Sm l Hl) as (l0 & B1 & B2). auto. }
  destruct (s_thread s ctl) as [p ops] eqn:Et. cbn [t_pc t_ops] in *. pose proof (St ctl) as Sc. rewrite Et in Sc.
  assert (Def : (s_is_prof s = profiling_after (ops_of ctl tr) /\
     (if profiling_after (ops_of ctl tr) then s_should s = false /\ running (s_prof s) = true /\ (forall l, stacks_of (s_prof s) = Some l -> l = samples tr) else s_prof s = PNone)) ->
    s_is_prof s = profiling_after (ops_of ctl tr) /\
     (if profiling_after (ops_of ctl tr) then s_should s = false /\ running (s_prof s') = true /\ (forall l, stacks_of (s_prof s') = Some l -> l = samples (tr ++ events e)) else s_prof s' = PNone)).
  { intros [D1 D2]. split; [exact D1|]. destruct (profiling_after (ops_of ctl tr)); [|exfalso; auto]. destruct D2 as (D2 & D3 & D4). auto. }
  destruct p; try (exact (Def T)); try (destruct ops as [|[] ops]); try (exact (Def T)); try (exfalso; tauto);
    try (destruct T as (T1 & T2 & T3 & T4); auto; fail).
  destruct T as (T1 & T2 & T3). split; [exact T1|]. split; [exact T2|]. exact (Sc ops eq_refl eq_refl T2 T3).
Qed.
Lemma control_step programs ctl d tr s a e s' : programs_ok ctl programs -> case d s a e s' -> locks s -> stacks_ok programs tr s ->
  control_state ctl tr s -> control_state ctl (tr ++ events e) s'.
Proof.
  intros (Psc & Pc & Pn) C L K T.
  assert (Oth : forall i o ops, i <> ctl -> t_ops (s_thread s i) = o :: ops -> o <> OStart /\ o <> OFinish).
  { intros i o ops N E. pose proof (k_prog _ _ _ K i) as P. rewrite E in P. destruct (Pn i N) as [A B]. rewrite P in A, B.
    split; intros ->; [apply A|apply B]; apply in_or_app; right; left; reflexivity. }
  assert (Self : forall o ops, t_ops (s_thread s ctl) = o :: ops ->
    match o with OStart => profiling_after (ops_of ctl tr) = false | OFinish => profiling_after (ops_of ctl tr) = true | _ => True end).
  { intros o ops E. apply (Pc _ o ops). rewrite (k_prog _ _ _ K ctl), E. reflexivity. }
  destruct C.
  1-20: destruct (Z.eq_dec i ctl) as [-> | N]; [clear Oth; specialize (Self) | pose proof (Oth i) as Oi; rewrite H in Oi; cbn [t_ops] in Oi].
  all: try (apply (control_other ctl tr s _ _ i N T); simpl_state; rewrite ?upd_other by congruence; try reflexivity; intros ? Q; try discriminate;
    injection Q as <-; cbn; rewrite ?neq_eqb by congruence; split; try reflexivity; destruct o; try reflexivity; exfalso; destruct (Oi _ _ N eq_refl); congruence).
  all: try (pose proof (l_wf _ L ctl) as Wc; rewrite H in Wc; unfold wf in Wc; cbn [t_pc t_ops] in Wc).
  all: try (pose proof (l_wf _ L i) as Wi; rewrite H in Wi; unfold wf in Wi; cbn [t_pc t_ops] in Wi).
  all: try (exfalso; destruct (Oi _ _ N eq_refl); congruence).
  all: try (exfalso; destruct ops as [|[] ops]; try contradiction; destruct (Oi _ _ N eq_refl); congruence).
  all: try (apply (control_other ctl tr s _ _ i N T); simpl_state; rewrite ?upd_other by congruence; try reflexivity; intros ? Q; try discriminate;
    injection Q as <-; cbn; rewrite ?neq_eqb by congruence; split; try reflexivity; destruct o; try reflexivity; exfalso; destruct (Oi _ _ N eq_refl); congruence).
  1-20: unfold control_state in *; rewrite H in T; simpl_state; rewrite upd_same; rewrite ?H in *; cbn [t_pc t_ops events] in *; rewrite ?app_nil_r;
    try exact T.
  - destruct (negb (k_alive (s_info s ctl))), d; exact T.
  - rewrite ops_of_app, samples_snoc. cbn [ops_of flat_map op_by app apply_sample]. rewrite app_nil_r. destruct d; exact T.
  - destruct d; exact T.
  - (* c_start1 *) split; [reflexivity|]. specialize (Self _ _ eq_refl). cbn beta iota in Self. rewrite Self in T. apply T.
  - split; [apply T|]. auto.
  - (* c_finish1 *) specialize (Self _ _ eq_refl). cbn beta iota in Self. rewrite Self in T. destruct T as (T1 & T2 & T3 & T4).
    split; [exact T1|]. split; [reflexivity|]. split; [|exact T4]. intros F. rewrite F in T3. discriminate.
  - split; [apply T|reflexivity].
  - rewrite ops_of_app. cbn [ops_of flat_map op_by app]. rewrite Z.eqb_refl. cbn [app]. rewrite profiling_snoc. cbn [apply_control].
    split; [reflexivity|apply T].
  - (* c_unlock *) rewrite ops_of_app, samples_snoc. cbn [ops_of flat_map op_by app]. rewrite Z.eqb_refl. cbn [app]. rewrite profiling_snoc.
    destruct o; try discriminate; exact T.
  - rewrite ops_of_app, samples_snoc. cbn [ops_of flat_map op_by app]. rewrite Z.eqb_refl. cbn [app]. rewrite profiling_snoc.
    destruct o; try discriminate; try congruence; try exact T. cbn [apply_control apply_sample].
    destruct T as (T1 & T2 & T3). split; [exact T1|]. split; [exact T2|].
    destruct T3 as [-> | ->]; (split; [reflexivity|intros l Hl; injection Hl as <-; reflexivity]).
  - (* the profiler *) apply (control_prof ctl tr s); simpl_state; rewrite ?H; try reflexivity; try exact T; try discriminate; cbn; auto.
    + destruct (s_should s); discriminate.
    + intros ->. auto.
    + intros i ops -> _ -> [F | F]; [injection F as ->; auto|discriminate].
    + intros l' Hl. exists stacks. rewrite app_nil_r. split; [reflexivity|]. destruct (s_should s); cbn in Hl; congruence.
  - apply (control_prof ctl tr s); simpl_state; rewrite ?H; try reflexivity; try exact T; try discriminate; cbn; auto.
    + intros i ops -> F _ _. assert (P : s_plock s = Some (App ctl)) by (apply (l_p _ L); rewrite F; reflexivity). congruence.
    + intros x Hx. injection Hx as <-. reflexivity.
    + intros l' Hl. exists stacks. rewrite samples_snoc. split; [reflexivity|]. cbn. congruence.
  - apply (control_prof ctl tr s); simpl_state; rewrite ?H; try reflexivity; try exact T; try discriminate; cbn; auto.
    + intros i ops -> F _ [Q | Q]; discriminate.
    + intros x Hx. injection Hx as <-. reflexivity.
    + intros l' Hl. exists stacks. rewrite samples_snoc. split; [reflexivity|]. cbn. congruence.
  - apply (control_prof ctl tr s); simpl_state; rewrite ?H; try reflexivity; try exact T; try discriminate; cbn; auto.
    + intros i ops -> F _ [Q | Q]; discriminate.
    + intros l' Hl. exists stacks. rewrite app_nil_r. split; [reflexivity|]. congruence.
  - apply (control_prof ctl tr s); simpl_state; rewrite ?H; try reflexivity; try exact T; try discriminate; cbn; auto.
    + intros i ops -> F _ [Q | Q]; discriminate.
    + intros l' Hl. exists stacks. rewrite app_nil_r. split; [reflexivity|]. congruence.
  - apply (control_prof ctl tr s); simpl_state; rewrite ?H; try reflexivity; try exact T; try discriminate; cbn; auto.
    + intros i ops -> F _ [Q | Q]; discriminate.
    + intros x Hx. injection Hx as <-. reflexivity.
    + intros l' Hl. exists stacks. rewrite samples_snoc. split; [reflexivity|]. cbn. congruence.
  - apply (control_prof ctl tr s); simpl_state; rewrite ?H; try reflexivity; try exact T; try discriminate; cbn; auto.
    + right. discriminate.
    + intros i ops -> F _ [Q | Q]; discriminate.
    + intros x Hx. injection Hx as <-. reflexivity.
Qed.
