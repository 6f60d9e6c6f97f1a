(* ProfilerProofs.v: the steps of ProfilerModel.v as cases, and the invariants of
   its runs. *)
From Verif Require Import Base BaseLemmas ProfilerModel ProfilerSpec.

Inductive case (d : bool) (s : state) : actor -> option event -> state -> Prop :=
  | c_exit i : s_thread s i = mk_thread Ready [] ->
      case d s (App i) None (go s i (if negb (k_alive (s_info s i)) then Gone else if d then XDelete else XErase))
  | c_xerase i ops : s_thread s i = mk_thread XErase ops -> s_plock s = None ->
      case d s (App i) None (go (set_plock s (Some (App i))) i XLocked)
  | c_xlocked i ops : s_thread s i = mk_thread XLocked ops ->
      case d s (App i) None (go (set_set s (erase i (s_set s))) i XUnlocking)
  | c_xunlocking i ops : s_thread s i = mk_thread XUnlocking ops ->
      case d s (App i) (Some (EExit i)) (go (set_plock s None) i (if d then Gone else XDelete))
  | c_xdelete i ops : s_thread s i = mk_thread XDelete ops ->
      case d s (App i) None (go (set_info s i (mk_info (k_labels (s_info s i)) (k_size (s_info s i)) (k_lock (s_info s i)) false)) i (if d then XErase else Gone))
  | c_lock i o ops : s_thread s i = mk_thread Ready (o :: ops) -> on_stack o = true -> k_lock (s_info s i) = None ->
      case d s (App i) None (go (set_info s i (mk_info (k_labels (s_info s i)) (k_size (s_info s i)) (Some (App i)) true)) i Locked)
  | c_plock i o ops : s_thread s i = mk_thread Ready (o :: ops) -> on_stack o = false -> s_plock s = None ->
      case d s (App i) None (go (set_plock s (Some (App i))) i Locked)
  | c_push1 i l ops : s_thread s i = mk_thread Locked (OPush l :: ops) -> k_size (s_info s i) < 30 ->
      case d s (App i) None (go (set_info s i (mk_info (upd (k_labels (s_info s i)) (k_size (s_info s i)) l) (k_size (s_info s i)) (k_lock (s_info s i)) (k_alive (s_info s i)))) i Stored)
  | c_push2 i l ops : s_thread s i = mk_thread Stored (OPush l :: ops) ->
      case d s (App i) None (go (set_info s i (mk_info (k_labels (s_info s i)) (k_size (s_info s i) + 1) (k_lock (s_info s i)) (k_alive (s_info s i)))) i Unlocking)
  | c_pop i ops : s_thread s i = mk_thread Locked (OPop :: ops) -> 0 < k_size (s_info s i) ->
      case d s (App i) None (go (set_info s i (mk_info (k_labels (s_info s i)) (k_size (s_info s i) - 1) (k_lock (s_info s i)) (k_alive (s_info s i)))) i Unlocking)
  | c_update i l ops : s_thread s i = mk_thread Locked (OUpdate l :: ops) -> k_size (s_info s i) <> 0 ->
      case d s (App i) None (go (set_info s i (mk_info (upd (k_labels (s_info s i)) (k_size (s_info s i) - 1) l) (k_size (s_info s i)) (k_lock (s_info s i)) (k_alive (s_info s i)))) i Unlocking)
  | c_register i ops : s_thread s i = mk_thread Locked (ORegister :: ops) ->
      case d s (App i) None (go (set_set (set_info s i (mk_info (k_labels (s_info s i)) (k_size (s_info s i)) (k_lock (s_info s i)) true)) (insert i (s_set s))) i Unlocking)
  | c_start1 i ops : s_thread s i = mk_thread Locked (OStart :: ops) -> s_is_prof s = false ->
      case d s (App i) None (go (set_is_prof s true) i Stored)
  | c_start2 i ops : s_thread s i = mk_thread Stored (OStart :: ops) ->
      case d s (App i) None (go (set_prof (set_should s false) (PTest [])) i Unlocking)
  | c_finish1 i ops : s_thread s i = mk_thread Locked (OFinish :: ops) -> s_is_prof s = true ->
      case d s (App i) None (go (set_should s true) i Unlocking)
  | c_finish2 i ops : s_thread s i = mk_thread Unlocking (OFinish :: ops) ->
      case d s (App i) None (go (set_plock s None) i Joining)
  | c_join i ops : s_thread s i = mk_thread Joining ops -> s_prof s = PDone ->
      case d s (App i) None (go (set_prof s PNone) i Joined)
  | c_joined i ops : s_thread s i = mk_thread Joined ops ->
      case d s (App i) (Some (EOp i OFinish)) (set_thread (set_is_prof s false) i (mk_thread Ready (tl ops)))
  | c_unlock i o ops : s_thread s i = mk_thread Unlocking (o :: ops) -> on_stack o = true ->
      case d s (App i) (Some (EOp i o)) (set_thread (set_info s i (mk_info (k_labels (s_info s i)) (k_size (s_info s i)) None (k_alive (s_info s i)))) i (mk_thread Ready ops))
  | c_punlock i o ops : s_thread s i = mk_thread Unlocking (o :: ops) -> on_stack o = false -> o <> OFinish ->
      case d s (App i) (Some (EOp i o)) (set_thread (set_plock s None) i (mk_thread Ready ops))
  | c_test stacks : s_prof s = PTest stacks ->
      case d s Prof None (set_prof s (if s_should s then PReport stacks else PTick stacks))
  | c_tick stacks : s_prof s = PTick stacks -> s_plock s = None ->
      case d s Prof (Some ETick) (set_prof (set_plock s (Some Prof)) (PIter (s_set s) stacks))
  | c_tock stacks : s_prof s = PIter [] stacks ->
      case d s Prof (Some ETock) (set_prof (set_plock s None) (PTest stacks))
  | c_record t todo stacks : s_prof s = PIter (t :: todo) stacks -> k_lock (s_info s t) = None -> k_alive (s_info s t) = true ->
      case d s Prof None (set_prof (set_info s t (mk_info (k_labels (s_info s t)) (k_size (s_info s t)) (Some Prof) (k_alive (s_info s t)))) (PCopy t todo [] stacks))
  | c_copy t todo dst stacks : s_prof s = PCopy t todo dst stacks -> k_alive (s_info s t) = true -> Z.of_nat (length dst) < k_size (s_info s t) ->
      case d s Prof None (set_prof s (PCopy t todo (dst ++ [k_labels (s_info s t) (Z.of_nat (length dst))]) stacks))
  | c_sample t todo dst stacks : s_prof s = PCopy t todo dst stacks -> k_alive (s_info s t) = true -> k_size (s_info s t) <= Z.of_nat (length dst) ->
      case d s Prof (Some (ESample t dst)) (set_prof (set_info s t (mk_info (k_labels (s_info s t)) (k_size (s_info s t)) None (k_alive (s_info s t)))) (PIter todo (stacks ++ [dst])))
  | c_report stacks : s_prof s = PReport stacks ->
      case d s Prof (Some (EReport (Z.of_nat (length (s_set s))) stacks)) (set_prof s PDone).

Lemma step_case d s a e s' : step d s a = Some (e, s') -> case d s a e s'.
Proof.
  unfold step. destruct (fault s a) eqn:F; [discriminate|]. destruct a as [i|].
  - unfold step_app, fault in *. destruct (s_thread s i) as [p ops] eqn:E. cbn [t_pc t_ops] in *.
    assert (Gt : forall q, go s i q = go s i q) by reflexivity.
    destruct p; destruct ops as [|o ops]; cbn [tl] in *; try discriminate;
      try (destruct o; cbn [on_stack] in *; try discriminate);
      repeat match goal with |- context [match s_plock s with _ => _ end] => destruct (s_plock s) eqn:?; try discriminate
        | |- context [match k_lock (s_info s i) with _ => _ end] => destruct (k_lock (s_info s i)) eqn:?; try discriminate
        | |- context [match s_prof s with _ => _ end] => destruct (s_prof s) eqn:?; try discriminate end;
      intros K; injection K as <- <-;
      first [ eapply c_exit; eassumption | eapply c_xerase; eassumption | eapply c_xlocked; eassumption | eapply c_xunlocking; eassumption
        | eapply c_xdelete; eassumption | eapply c_lock; [eassumption|reflexivity|assumption] | eapply c_plock; [eassumption|reflexivity|assumption]
        | eapply c_push1; [eassumption|unfold kMaxSize in F; lia] | eapply c_push2; eassumption | eapply c_pop; [eassumption|lia]
        | eapply c_update; [eassumption|lia] | eapply c_register; eassumption | eapply c_start1; [eassumption|assumption]
        | eapply c_start2; eassumption | eapply c_finish1; [eassumption|destruct (s_is_prof s); [reflexivity|discriminate]]
        | eapply c_finish2; eassumption | eapply c_join; eassumption
        | eapply (c_joined d s i (_ :: _)); eassumption | eapply (c_joined d s i []); eassumption
        | eapply c_unlock; [eassumption|reflexivity] | eapply c_punlock; [eassumption|reflexivity|discriminate] | idtac ].
  - unfold step_prof, fault in *. destruct (s_prof s) as [| stacks | stacks | [|t todo] stacks | t todo dst stacks | stacks |] eqn:E; try discriminate.
    + intros K. injection K as <- <-. apply c_test, E.
    + destruct (s_plock s) eqn:P; [discriminate|]. intros K. injection K as <- <-. apply c_tick; assumption.
    + intros K. injection K as <- <-. apply c_tock, E.
    + destruct (k_lock (s_info s t)) eqn:P; [discriminate|]. intros K. injection K as <- <-. apply c_record; try assumption.
      destruct (k_alive (s_info s t)); [reflexivity|discriminate].
    + destruct (k_alive (s_info s t)) eqn:Al; [|discriminate]. destruct (Z.ltb_spec (Z.of_nat (length dst)) (k_size (s_info s t))).
      * intros K. injection K as <- <-. apply c_copy; assumption.
      * intros K. injection K as <- <-. rewrite <- Al at 1. apply c_sample; assumption.
    + intros K. injection K as <- <-. apply c_report, E.
Qed.

(* who holds what *)
Definition holds_stack (t : thread) : bool :=
  match t_pc t, t_ops t with (Locked | Stored | Unlocking), o :: _ => on_stack o | _, _ => false end.
Definition holds_p (t : thread) : bool :=
  match t_pc t, t_ops t with
  | (Locked | Stored | Unlocking), o :: _ => negb (on_stack o)
  | (XLocked | XUnlocking), _ => true
  | _, _ => false
  end.
Definition prof_stack (p : pstate) (i : Z) : bool := match p with PCopy t _ _ _ => t =? i | _ => false end.
Definition prof_p (p : pstate) : bool := match p with PIter _ _ | PCopy _ _ _ _ => true | _ => false end.
Definition wf (t : thread) : Prop :=
  match t_pc t with
  | Ready => True
  | Locked | Unlocking => t_ops t <> []
  | Stored => match t_ops t with OPush _ :: _ | OStart :: _ => True | _ => False end
  | Joining | Joined => match t_ops t with OFinish :: _ => True | _ => False end
  | _ => t_ops t = []
  end.
Record locks (s : state) : Prop := {
  l_wf : forall i, wf (s_thread s i);
  l_stack : forall i, k_lock (s_info s i) = if holds_stack (s_thread s i) then Some (App i) else if prof_stack (s_prof s) i then Some Prof else None;
  l_excl : forall i, holds_stack (s_thread s i) = true -> prof_stack (s_prof s) i = false;
  l_p : forall i, holds_p (s_thread s i) = true -> s_plock s = Some (App i);
  l_pp : prof_p (s_prof s) = true -> s_plock s = Some Prof;
  l_owner : forall b, s_plock s = Some b -> match b with App i => holds_p (s_thread s i) = true | Prof => prof_p (s_prof s) = true end }.

Ltac simp := unfold go, set_thread, set_info, set_plock, set_set, set_is_prof, set_should, set_prof in *;
  cbn [s_thread s_info s_plock s_set s_is_prof s_should s_prof] in *; unfold upd in *;
  cbn [k_labels k_size k_lock k_alive t_pc t_ops tl] in *.
Ltac look i := match goal with E : s_thread ?s i = mk_thread _ _ |- _ => rewrite ?E in * end; cbn [t_pc t_ops tl] in *.
Ltac split_at j i := destruct (Z.eqb_spec j i) as [-> | ?]; cbn [k_labels k_size k_lock k_alive t_pc t_ops tl].
Lemma neq_eqb a b : a <> b -> (a =? b) = false. Proof. lia. Qed.

Lemma locks_init programs : locks (init programs).
Proof. constructor; cbn; try reflexivity; try discriminate; intros; exact I. Qed.
Lemma prof_stack_p p i : prof_stack p i = true -> prof_p p = true.
Proof. destruct p; cbn; congruence. Qed.
(* a step of application thread i: at most one lock is taken or released *)
Lemma locks_app s s' i : locks s ->
  (forall j, j <> i -> s_thread s' j = s_thread s j) -> (forall j, j <> i -> k_lock (s_info s' j) = k_lock (s_info s j)) ->
  (forall j, prof_stack (s_prof s') j = prof_stack (s_prof s) j) -> prof_p (s_prof s') = prof_p (s_prof s) ->
  wf (s_thread s' i) ->
  (holds_stack (s_thread s' i) = holds_stack (s_thread s i) /\ k_lock (s_info s' i) = k_lock (s_info s i) \/
   k_lock (s_info s i) = None /\ holds_stack (s_thread s' i) = true /\ k_lock (s_info s' i) = Some (App i) \/
   holds_stack (s_thread s i) = true /\ holds_stack (s_thread s' i) = false /\ k_lock (s_info s' i) = None) ->
  (holds_p (s_thread s' i) = holds_p (s_thread s i) /\ s_plock s' = s_plock s \/
   s_plock s = None /\ holds_p (s_thread s' i) = true /\ s_plock s' = Some (App i) \/
   holds_p (s_thread s i) = true /\ holds_p (s_thread s' i) = false /\ s_plock s' = None) ->
  locks s'.
Proof.
  intros [W S X P PP O] ET EI EP EPP W' HS HP. constructor.
  - intros j. destruct (Z.eq_dec j i) as [-> | N]; [exact W'|]. rewrite ET by exact N. apply W.
  - intros j. rewrite EP. destruct (Z.eq_dec j i) as [-> | N]; [|rewrite ET, EI by exact N; apply S].
    specialize (S i). specialize (X i). destruct HS as [[-> ->] | [(H1 & -> & ->) | (H1 & -> & ->)]]; [exact S|reflexivity|].
    rewrite (X H1). reflexivity.
  - intros j. rewrite EP. destruct (Z.eq_dec j i) as [-> | N]; [|rewrite ET by exact N; apply X].
    specialize (S i). specialize (X i). destruct HS as [[-> _] | [(H1 & -> & _) | (H1 & -> & _)]]; [exact X| |congruence].
    intros _. rewrite H1 in S. destruct (holds_stack (s_thread s i)), (prof_stack (s_prof s) i); congruence.
  - intros j. destruct (Z.eq_dec j i) as [-> | N].
    + destruct HP as [[-> ->] | [(H1 & -> & ->) | (H1 & -> & ->)]]; [apply P|reflexivity|discriminate].
    + rewrite ET by exact N. intros H. pose proof (P j H) as Pj. destruct HP as [[_ ->] | [(H1 & _) | (H1 & _)]]; [exact Pj|congruence|].
      apply P in H1. congruence.
  - rewrite EPP. intros H. pose proof (PP H) as Pp. destruct HP as [[_ ->] | [(H1 & _) | (H1 & _)]]; [exact Pp|congruence|].
    apply P in H1. congruence.
  - intros b Hb. destruct HP as [[E1 E2] | [(H1 & H2 & H3) | (H1 & H2 & H3)]]; [|rewrite H3 in Hb; injection Hb as <-; exact H2|congruence].
    rewrite E2 in Hb. specialize (O b Hb). destruct b as [j|]; [|rewrite EPP; exact O].
    destruct (Z.eq_dec j i) as [-> | N]; [rewrite E1; exact O|]. rewrite ET by exact N. exact O.
Qed.
Lemma upd_same {A} (f : Z -> A) i v : upd f i v i = v. Proof. unfold upd. rewrite Z.eqb_refl. reflexivity. Qed.
Lemma upd_other {A} (f : Z -> A) i v j : j <> i -> upd f i v j = f j. Proof. intros H. unfold upd. rewrite neq_eqb by exact H. reflexivity. Qed.
Ltac simpl_state := unfold go, set_thread, set_info, set_plock, set_set, set_is_prof, set_should, set_prof in *;
  cbn [s_thread s_info s_plock s_set s_is_prof s_should s_prof] in *.
Ltac at_i := rewrite ?upd_same in *; cbn [k_labels k_size k_lock k_alive t_pc t_ops tl] in *.
Lemma locks_prof s p' : locks s -> (forall i, prof_stack (s_prof s) i = false) -> (forall i, prof_stack p' i = false) ->
  prof_p p' = prof_p (s_prof s) -> locks (set_prof s p').
Proof.
  intros [W S X P PP O] E1 E2 E3. constructor; simpl_state.
  - exact W.
  - intros i. rewrite E2, S, E1. reflexivity.
  - intros i _. apply E2.
  - exact P.
  - rewrite E3. exact PP.
  - intros b Hb. specialize (O b Hb). destruct b; [exact O|congruence].
Qed.
Lemma locks_step d s a e s' : case d s a e s' -> locks s -> locks s'.
Proof.
  intros C L. destruct C.
  1-20: pose proof (l_wf _ L i) as Wi; rewrite H in Wi; unfold wf in Wi; cbn [t_pc t_ops] in Wi.
  1-20: apply (locks_app s _ i L); simpl_state; rewrite ?H; at_i; intros; rewrite ?upd_other by assumption; try reflexivity.
  all: try match goal with |- context [negb (k_alive ?k)] => destruct (k_alive k); cbn [negb] end.
  all: try match goal with |- context [if ?d then _ else _] => is_var d; destruct d end.
  all: unfold wf, holds_stack, holds_p in *; cbn [t_pc t_ops on_stack negb] in *.
  all: try match goal with H : on_stack _ = _ |- _ => rewrite H; cbn [negb] end.
  all: try (exact I || assumption || discriminate || tauto || reflexivity).
  all: try (destruct ops; [tauto|discriminate || tauto]).
  - (* c_start2 *) destruct (prof_stack (s_prof s) j) eqn:E; [|reflexivity]. apply prof_stack_p, (l_pp _ L) in E.
    assert (F : holds_p (s_thread s i) = true) by (rewrite H; reflexivity). apply (l_p _ L) in F. congruence.
  - destruct (prof_p (s_prof s)) eqn:E; [|reflexivity]. apply (l_pp _ L) in E.
    assert (F : holds_p (s_thread s i) = true) by (rewrite H; reflexivity). apply (l_p _ L) in F. congruence.
  - rewrite H0. reflexivity.
  - rewrite H0. reflexivity.
  - apply locks_prof; [exact L| | |]; rewrite ?H; destruct (s_should s); reflexivity.
  - (* c_tick *) destruct L as [W S X P PP O]. constructor; simpl_state; try assumption.
    + intros i. rewrite S, H. reflexivity.
    + reflexivity.
    + intros i Hi. apply P in Hi. congruence.
    + reflexivity.
    + intros b Hb. injection Hb as <-. reflexivity.
  - (* c_tock *) destruct L as [W S X P PP O]. rewrite H in *. specialize (PP eq_refl). constructor; simpl_state; try assumption.
    + intros i Hi. apply P in Hi. congruence.
    + discriminate.
    + discriminate.
  - (* c_record *) destruct L as [W S X P PP O]. rewrite H in *. constructor; simpl_state; try assumption.
    + intros i. unfold upd. destruct (Z.eqb_spec i t) as [-> | N]; cbn [k_lock prof_stack].
      * rewrite Z.eqb_refl. specialize (S t). destruct (holds_stack (s_thread s t)); [congruence|reflexivity].
      * rewrite S, neq_eqb by congruence. reflexivity.
    + intros i Hi. cbn [prof_stack]. destruct (Z.eqb_spec t i) as [-> | N]; [|reflexivity]. specialize (S i). rewrite Hi in S. congruence.
  - (* c_copy *) destruct L as [W S X P PP O]. rewrite H in *. constructor; simpl_state; assumption.
  - (* c_sample *) destruct L as [W S X P PP O]. rewrite H in *. constructor; simpl_state; try assumption.
    + intros i. unfold upd. destruct (Z.eqb_spec i t) as [-> | N]; cbn [k_lock prof_stack].
      * destruct (holds_stack (s_thread s t)) eqn:E; [|reflexivity]. apply X in E. cbn in E. lia.
      * rewrite S. cbn [prof_stack]. rewrite neq_eqb by congruence. reflexivity.
    + reflexivity.
  - apply locks_prof; [exact L| | |]; rewrite ?H; reflexivity.
Qed.
