(* ProfilerScopes.v: code with scoped labels keeps to the rules, and the labels of
   the stack are those of the enclosing blocks. *)
From Verif Require Import Base BaseLemmas ProfilerModel ProfilerSpec.

Fixpoint scan (labels : list Z) (ops : list op) : list (list Z) :=
  match ops with [] => [] | o :: r => apply_op labels o :: scan (apply_op labels o) r end.
Fixpoint allowed (labels : list Z) (ops : list op) : Prop :=
  match ops with [] => True | o :: r => op_ok labels o /\ allowed (apply_op labels o) r end.
Lemma scan_app a : forall labels b, scan labels (a ++ b) = scan labels a ++ scan (fold_left apply_op a labels) b.
Proof. induction a as [|o a IH]; intros; cbn; [reflexivity|]. rewrite IH. reflexivity. Qed.
Lemma allowed_app a : forall labels b, allowed labels (a ++ b) <-> allowed labels a /\ allowed (fold_left apply_op a labels) b.
Proof. induction a as [|o a IH]; intros; cbn; [tauto|]. rewrite IH. tauto. Qed.
Lemma last_cons {A} (x d : A) l : last (x :: l) d = last l x.
Proof. revert x. induction l as [|y l IH]; intros x; [reflexivity|]. cbn [last] in *. destruct l; [reflexivity|]. apply IH. Qed.
Lemma scan_last ops : forall labels, last (scan labels ops) labels = fold_left apply_op ops labels.
Proof. induction ops as [|o ops IH]; intros; [reflexivity|]. cbn [scan fold_left]. rewrite last_cons. apply IH. Qed.
Lemma allowed_scopes ops : forall labels, allowed labels ops <->
  forall before o after, ops = before ++ o :: after -> op_ok (fold_left apply_op before labels) o.
Proof.
  induction ops as [|o ops IH]; intros labels; cbn [allowed].
  - split; [|auto]. intros _ [|] ? ? E; discriminate.
  - rewrite IH. split.
    + intros [H1 H2] [|x before] o' after E; cbn in E; injection E as <- E; [exact H1|]. cbn. exact (H2 _ _ _ E).
    + intros H. split; [exact (H [] o ops eq_refl)|]. intros before o' after ->. exact (H (o :: before) o' after eq_refl).
Qed.
Lemma scan_nth ops : forall labels before o after, ops = before ++ o :: after ->
  nth_error (scan labels ops) (length before) = Some (fold_left apply_op (before ++ [o]) labels).
Proof.
  intros labels before o after ->. rewrite scan_app. revert labels. induction before as [|x before IH]; intros; [reflexivity|]. apply IH.
Qed.

Fixpoint stmt_ind2 (P : stmt -> Prop) (B : forall l body, Forall P body -> P (Block l body)) (U : forall n l, P (UpdateLabel n l)) (D : forall o, P (Do o)) (s : stmt) : P s :=
  match s with
  | Block l body => B l body ((fix all b : Forall P b := match b with [] => Forall_nil P | x :: r => Forall_cons x (stmt_ind2 P B U D x) (all r) end) body)
  | UpdateLabel n l => U n l
  | Do o => D o
  end.
Definition good (labels : list Z) (ops : list op) (shown : list (list Z)) : Prop :=
  scan labels ops = shown /\ allowed labels ops /\ length (fold_left apply_op ops labels) = length labels.
Definition stmt_good (s : stmt) : Prop := forall n inside labels, well_scoped n inside s -> (inside = true -> labels <> []) ->
  (length labels + n <= 30)%nat -> good labels (compile s) (intended labels s).
Lemma all_good body : Forall stmt_good body -> forall n inside labels, Forall (well_scoped n inside) body -> (inside = true -> labels <> []) ->
  (length labels + n <= 30)%nat -> good labels (flat_map compile body) (intended_all labels body).
Proof.
  induction body as [|x body IH] using rev_ind; intros G n inside labels W I N.
  - repeat split.
  - apply Forall_app in G, W. destruct G as [G Gx], W as [W Wx]. apply Forall_inv in Gx, Wx.
    destruct (IH G n inside labels W I N) as (S & A & L).
    assert (I' : inside = true -> fold_left apply_op (flat_map compile body) labels <> []).
    { intros Hi F. rewrite F in L. apply I in Hi. destruct labels; [congruence|discriminate]. }
    destruct (Gx n inside (fold_left apply_op (flat_map compile body) labels) Wx I' ltac:(lia)) as (S2 & A2 & L2).
    rewrite flat_map_app. cbn [flat_map]. rewrite app_nil_r. unfold good, intended_all. rewrite fold_left_app. cbn [fold_left]. fold (intended_all labels body).
    rewrite scan_app, allowed_app, fold_left_app, S2. unfold then_labels. rewrite <- S, scan_last. split; [reflexivity|]. split; [auto|lia].
Qed.
Lemma each_good s : stmt_good s.
Proof.
  induction s as [l body IH|k l|o] using stmt_ind2; intros n inside labels W I N.
  - destruct n as [|n]; [contradiction|]. cbn [well_scoped] in W.
    assert (Wb : Forall (well_scoped n true) body). { clear -W. induction body as [|x body IH]; constructor; [apply W|apply IH, W]. }
    assert (Nl : labels ++ [l] <> []) by (destruct labels; discriminate).
    destruct (all_good body IH n true (labels ++ [l]) Wb (fun _ => Nl) ltac:(rewrite app_length; cbn; lia)) as (S & A & L).
    cbn [compile intended]. fold (intended_all (labels ++ [l]) body). unfold good, then_labels. cbn [scan allowed fold_left apply_op].
    rewrite scan_app, allowed_app, fold_left_app, <- S, scan_last. cbn [scan allowed fold_left apply_op].
    assert (Nf : fold_left apply_op (flat_map compile body) (labels ++ [l]) <> []).
    { intros F. rewrite F, app_length in L. cbn in L. lia. }
    split; [reflexivity|]. split; [repeat split; [cbn; lia|exact A|exact Nf]|].
    rewrite (app_removelast_last 0 Nf), !app_length in L. cbn in L. lia.
  - assert (W2 : k = O /\ inside = true) by (destruct n; exact W). destruct W2 as [-> W2]. specialize (I W2). cbn [compile intended]. unfold good. cbn [scan allowed fold_left apply_op].
    pose proof (app_removelast_last 0 I) as E. set (x := last labels 0) in *. set (m := removelast labels) in *.
    split; [rewrite E, rev_app_distr; cbn [rev app set_nth]; rewrite rev_involutive; reflexivity|].
    split; [split; [exact I|exact Logic.I]|]. rewrite E, !app_length. reflexivity.
  - assert (W2 : on_stack o = false) by (destruct n; exact W). unfold good. cbn. destruct o; try discriminate; repeat split.
Qed.
Theorem scoped_programs prog : Forall (well_scoped 30 false) prog ->
  scopes_ok (flat_map compile prog) /\
  length (intended_all [] prog) = length (flat_map compile prog) /\
  forall before o after, flat_map compile prog = before ++ o :: after ->
    nth_error (intended_all [] prog) (length before) = Some (labels_after (before ++ [o])).
Proof.
  intros W. assert (G : Forall stmt_good prog) by (rewrite Forall_forall; intros s _; apply each_good).
  destruct (all_good prog G 30%nat false [] W ltac:(discriminate) ltac:(cbn; lia)) as (S & A & _).
  rewrite <- S. split; [exact (proj1 (allowed_scopes _ _) A)|]. split.
  - clear. generalize (@nil Z). induction (flat_map compile prog) as [|o r IH]; intros l; cbn [scan length]; [reflexivity|]. f_equal. apply IH.
  - intros before o after E. apply (scan_nth _ _ _ _ _ E).
Qed.
