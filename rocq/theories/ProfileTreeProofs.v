(* ProfileTreeProofs.v: the profile tree shows exactly the counts of the samples. *)
From Coq Require Import Permutation Sorted.
From Verif Require Import Base BaseLemmas ProfileTreeModel ProfileTreeSpec.

Lemma tree_rect_all (P : tree -> Prop) : (forall l w ch, (forall c, In c ch -> P c) -> P (Node l w ch)) -> forall t, P t.
Proof.
  intros H. fix F 1. intros [l w ch]. apply H. induction ch as [|c ch IH]; intros d D; [destruct D|].
  destruct D as [E|D]; [case E; apply F | exact (IH d D)].
Qed.

Definition tail_of (x : Z) (s : list Z) : list (list Z) := match s with y :: r => if y =? x then [r] else [] | [] => [] end.
Definition tails (x : Z) (S : list (list Z)) : list (list Z) := flat_map (tail_of x) S.
Notation len S := (Z.of_nat (length S)).

Lemma tails_app x A B : tails x (A ++ B) = tails x A ++ tails x B.
Proof. unfold tails. apply flat_map_app. Qed.
Lemma tails_cons x s S : tails x (s :: S) = tail_of x s ++ tails x S. Proof. reflexivity. Qed.
Lemma begins_cons x p y r : begins (x :: p) (y :: r) = (x =? y) && begins p r. Proof. reflexivity. Qed.
Lemma begins_none x p : begins (x :: p) [] = false. Proof. reflexivity. Qed.
Lemma equal_cons x p y r : equal (x :: p) (y :: r) = (x =? y) && equal p r.
Proof. unfold equal. rewrite !begins_cons, (Z.eqb_sym y x). destruct (x =? y); reflexivity. Qed.
Lemma through_cons x p S : through (x :: p) S = through p (tails x S).
Proof.
  unfold through. f_equal. induction S as [|s S IH]; [reflexivity|]. cbn [filter tails flat_map]. fold (tails x S).
  destruct s as [|y r]; [exact IH|]. rewrite begins_cons, Z.eqb_sym. cbn [tail_of]. destruct (y =? x); [|exact IH].
  cbn [andb app filter]. destruct (begins p r); cbn [length]; congruence.
Qed.
Lemma ending_cons x p S : ending (x :: p) S = ending p (tails x S).
Proof.
  unfold ending. f_equal. induction S as [|s S IH]; [reflexivity|]. cbn [filter tails flat_map]. fold (tails x S).
  destruct s as [|y r]; [exact IH|]. rewrite equal_cons, (Z.eqb_sym x y). cbn [tail_of]. destruct (y =? x); [|exact IH].
  cbn [andb app filter]. destruct (equal p r); cbn [length]; congruence.
Qed.
Lemma through_nil S : through [] S = len S.
Proof. unfold through. induction S; cbn in *; lia. Qed.
Lemma ending_le p S : 0 <= ending p S <= through p S.
Proof.
  unfold ending, through. split; [lia|]. apply inj_le. induction S as [|s S IH]; [reflexivity|]. cbn [filter]. unfold equal at 1.
  destruct (begins p s); cbn [andb]; [|exact IH]. destruct (begins s p); cbn [length]; lia.
Qed.
Lemma tails_len x S : len (tails x S) <= len S - ending [] S.
Proof.
  unfold ending. induction S as [|s S IH]; [reflexivity|]. cbn [tails flat_map filter]. fold (tails x S). rewrite app_length.
  destruct s as [|y r]; cbn -[Z.of_nat]; [lia|]. destruct (y =? x); cbn [length]; lia.
Qed.
(* samples that do not end here go to one of the children *)
Lemma tails_total (xs : list Z) S : NoDup xs -> (forall x, tails x S <> [] -> In x xs) ->
  fold_right Z.add 0 (map (fun x => len (tails x S)) xs) = len S - ending [] S.
Proof.
  intros N. revert S. induction S as [|s S IH]; intros H.
  - induction xs; cbn in *; [reflexivity|]. inversion N; subst. rewrite IHxs; auto. cbn. congruence.
  - assert (H' : forall x, tails x S <> [] -> In x xs).
    { intros x Hx. apply H. cbn [tails flat_map]. fold (tails x S). intros E. apply app_eq_nil in E. tauto. }
    specialize (IH H'). destruct s as [|y r].
    + cbn [tails flat_map tail_of app]. fold tails. unfold ending in *. cbn -[Z.of_nat]. cbn [length].
      change (fun x => len (flat_map (tail_of x) S)) with (fun x => len (tails x S)). lia.
    + assert (Hy : In y xs). { apply H. cbn [tails flat_map tail_of]. rewrite Z.eqb_refl. discriminate. }
      assert (E : fold_right Z.add 0 (map (fun x => len (tails x ((y :: r) :: S))) xs) = 1 + fold_right Z.add 0 (map (fun x => len (tails x S)) xs)).
      { clear IH H H'. induction xs as [|a xs IHx]; [destruct Hy|]. inversion N; subst. cbn [map fold_right].
        rewrite (tails_cons a), app_length. cbn [tail_of]. destruct (Z.eqb_spec y a) as [<-|Ne].
        - cbn [length]. replace (map (fun x => len (tails x ((y :: r) :: S))) xs) with (map (fun x => len (tails x S)) xs); [lia|].
          apply map_ext_in. intros b Hb. cbn [tails flat_map tail_of]. fold (tails b S). destruct (Z.eqb_spec y b) as [<-|]; [contradiction|reflexivity].
        - destruct Hy as [->|Hy]; [congruence|]. cbn [length]. rewrite IHx by assumption. lia. }
      rewrite E, IH. unfold ending. cbn [filter equal begins andb length]. lia.
Qed.

(* AddStackToNode *)
Inductive rep : tree -> list (list Z) -> Prop :=
  | rep_intro l ch S : NoDup (map t_label ch) ->
      (forall c, In c ch -> exists x, t_label c = Label x /\ tails x S <> [] /\ rep c (tails x S)) ->
      (forall x, tails x S <> [] -> In (Label x) (map t_label ch)) ->
      rep (Node l (len S) ch) S.
Definition search (x : Z) (rest : list Z) := fix search (cs : list tree) : list tree :=
  match cs with
  | [] => [AddStackToNode rest (Node (Label x) 0 [])]
  | c :: cs' => if same_label (t_label c) x then AddStackToNode rest c :: cs' else c :: search cs'
  end.
Lemma add_label s t : t_label (AddStackToNode s t) = t_label t.
Proof. destruct s, t; reflexivity. Qed.
Lemma same_label_spec n x : same_label n x = true <-> n = Label x.
Proof. destruct n; cbn; rewrite ?Z.eqb_eq; split; congruence. Qed.
Lemma search_spec x rest ch : NoDup (map t_label ch) ->
  (exists c, In c ch /\ t_label c = Label x /\ map t_label (search x rest ch) = map t_label ch /\
     (forall d, In d (search x rest ch) <-> d = AddStackToNode rest c \/ In d ch /\ t_label d <> Label x)) \/
  (~ In (Label x) (map t_label ch) /\ search x rest ch = ch ++ [AddStackToNode rest (Node (Label x) 0 [])]).
Proof.
  induction ch as [|c ch IH]; intros N; [right; split; [intros []|reflexivity]|].
  cbn [search map] in *. inversion N as [|? ? N1 N2]; subst. destruct (same_label (t_label c) x) eqn:E.
  - apply same_label_spec in E. left. exists c. split; [left; reflexivity|]. split; [exact E|]. split; [cbn [map]; f_equal; apply add_label|].
    intros d. cbn [In]. split; intros [H|H]; auto.
    + right. split; [auto|]. intros F. apply N1. rewrite E, <- F. apply in_map, H.
    + destruct H as [[<-|H] Hn]; [congruence|auto].
  - assert (Nc : t_label c <> Label x) by (intros F; apply same_label_spec in F; congruence).
    destruct (IH N2) as [(d & D1 & D2 & D3 & D4)|(D1 & D2)].
    + left. exists d. split; [right; exact D1|]. split; [exact D2|]. split; [cbn [map]; f_equal; exact D3|].
      intros e. cbn [In]. rewrite D4. split; [intros [<-|[H|H]]|intros [H|[[<-|H] H']]]; tauto.
    + right. split; [|cbn [app]; f_equal; exact D2]. intros [F|F]; [congruence|contradiction].
Qed.
Lemma rep_wd t S S' : S = S' -> rep t S -> rep t S'. Proof. intros ->. auto. Qed.
Lemma add_stack s : forall t S, rep t S -> len S < 2 ^ 64 - 1 -> rep (AddStackToNode s t) (S ++ [s]).
Proof.
  induction s as [|x rest IH]; intros t S R L; inversion R as [l ch S' N C T]; subst.
  - cbn [AddStackToNode]. unfold wrapU. rewrite Z.mod_small by lia.
    replace (len S + 1) with (len (S ++ [@nil Z])) by (rewrite app_length; cbn [length]; lia).
    assert (E : forall x, tails x (S ++ [@nil Z]) = tails x S) by (intros x; rewrite tails_app; apply app_nil_r).
    apply rep_intro; [exact N| |].
    + intros c Hc. destruct (C c Hc) as (x & A & B & D). exists x. rewrite E. auto.
    + intros x. rewrite E. apply T.
  - cbn [AddStackToNode]. fold (search x rest). unfold wrapU. rewrite Z.mod_small by lia.
    replace (len S + 1) with (len (S ++ [x :: rest])) by (rewrite app_length; cbn [length]; lia).
    assert (Ex : tails x (S ++ [x :: rest]) = tails x S ++ [rest]).
    { rewrite tails_app. cbn. rewrite Z.eqb_refl. reflexivity. }
    assert (En : forall y, y <> x -> tails y (S ++ [x :: rest]) = tails y S).
    { intros y Hy. rewrite tails_app. cbn. destruct (Z.eqb_spec x y); [congruence|]. apply app_nil_r. }
    assert (Lx : len (tails x S) < 2 ^ 64 - 1) by (pose proof (tails_len x S); pose proof (ending_le [] S); lia).
    destruct (search_spec x rest ch N) as [(c & C1 & C2 & C3 & C4)|(C1 & C2)].
    + apply rep_intro; [rewrite C3; exact N| |].
      * intros d Hd. apply C4 in Hd. destruct Hd as [->|[Hd Hn]].
        -- exists x. rewrite add_label. split; [exact C2|]. rewrite Ex. split; [intros F; apply app_eq_nil in F; destruct F; discriminate|].
           apply IH; [|exact Lx]. destruct (C c C1) as (y & Y1 & _ & Y2). replace x with y by congruence. exact Y2.
        -- destruct (C d Hd) as (y & Y1 & Y2 & Y3). exists y. rewrite En by congruence. auto.
      * intros y Hy. rewrite C3. destruct (Z.eq_dec y x) as [->|Hn]; [rewrite <- C2; apply in_map, C1|]. apply T. rewrite <- En; auto.
    + rewrite C2. assert (Tx : tails x S = []) by (destruct (tails x S) eqn:F; [reflexivity|]; exfalso; apply C1, T; congruence).
      apply rep_intro.
      * rewrite map_app. cbn [map]. rewrite add_label. cbn [t_label].
        apply (Permutation_NoDup (l := Label x :: map t_label ch)); [apply Permutation_cons_append|]. constructor; assumption.
      * intros d Hd. apply in_app_or in Hd. destruct Hd as [Hd|[<-|[]]].
        -- destruct (C d Hd) as (y & Y1 & Y2 & Y3). exists y. rewrite En; auto. intros ->. apply C1. rewrite <- Y1. apply in_map, Hd.
        -- exists x. rewrite add_label. split; [reflexivity|]. rewrite Ex, Tx. split; [discriminate|].
           apply IH; [|cbn; lia]. apply (rep_intro (Label x) [] []); [constructor|intros ? []|cbn; congruence].
      * intros y Hy. rewrite map_app. apply in_or_app. destruct (Z.eq_dec y x) as [->|Hn].
        -- right. left. rewrite add_label. reflexivity.
        -- left. apply T. rewrite <- En; auto.
Qed.
Lemma AddStacks_rep stacks : len stacks < 2 ^ 64 -> rep (AddStacks stacks) stacks.
Proof.
  induction stacks as [|s stacks IH] using rev_ind; intros L.
  - apply (rep_intro NullLabel [] []); [constructor|intros ? []|cbn; congruence].
  - rewrite app_length in L. cbn [length] in L. unfold AddStacks. rewrite fold_left_app. cbn [fold_left].
    apply add_stack; [apply IH; lia|lia].
Qed.
Lemma AddStacks_label stacks : t_label (AddStacks stacks) = NullLabel.
Proof.
  unfold AddStacks. induction stacks as [|s stacks IH] using rev_ind; [reflexivity|]. rewrite fold_left_app. cbn [fold_left].
  rewrite add_label. exact IH.
Qed.

(* the tree with its "other" nodes, in any order of siblings *)
Definition other_label (is_root : bool) : node_label := if is_root then OtherOutside else Other.
Inductive final : bool -> tree -> list (list Z) -> Prop :=
  | final_intro b l ch S : NoDup (map t_label ch) ->
      (forall c, In c ch -> (exists x, t_label c = Label x /\ tails x S <> [] /\ final false c (tails x S)) \/
                            c = Node (other_label b) (ending [] S) [] /\ ending [] S < len S) ->
      (forall x, tails x S <> [] -> In (Label x) (map t_label ch)) ->
      (ending [] S < len S -> In (Node (other_label b) (ending [] S) []) ch) ->
      (ch <> [] -> fold_right Z.add 0 (map t_weight ch) = len S) ->
      final b (Node l (len S) ch) S.
Lemma fold_right_app_add (a b : list Z) : fold_right Z.add 0 (a ++ b) = fold_right Z.add 0 a + fold_right Z.add 0 b.
Proof. induction a; cbn; lia. Qed.
Lemma fold_weights l : forall a, 0 <= a -> (forall c, In c l -> 0 <= t_weight c) -> a + fold_right Z.add 0 (map t_weight l) < 2 ^ 64 ->
  fold_left (fun a c => wrapU 64 (a + t_weight c)) l a = a + fold_right Z.add 0 (map t_weight l).
Proof.
  induction l as [|c l IH]; intros a Ha P L; cbn [fold_left map fold_right] in *; [lia|].
  assert (0 <= t_weight c) by (apply P; left; reflexivity).
  assert (G : 0 <= fold_right Z.add 0 (map t_weight l)).
  { clear IH L. induction l as [|d l IHl]; cbn; [lia|]. assert (0 <= t_weight d) by (apply P; right; left; reflexivity).
    assert (forall c0, In c0 (c :: l) -> 0 <= t_weight c0) by (intros e [<-|He]; [assumption|apply P; right; right; exact He]). specialize (IHl H1). lia. }
  unfold wrapU. rewrite Z.mod_small by lia. rewrite IH; [lia|lia| |lia]. intros d Hd. apply P. right. exact Hd.
Qed.
Lemma add_other_label b t : t_label (AddOtherChildrenToNode b t) = t_label t. Proof. destruct t. reflexivity. Qed.
Lemma add_other_weight b t : t_weight (AddOtherChildrenToNode b t) = t_weight t. Proof. destruct t. reflexivity. Qed.
Lemma rep_weight t S : rep t S -> t_weight t = len S. Proof. intros []. reflexivity. Qed.
Lemma len_pos {X} (S : list X) : S <> [] -> 0 < len S. Proof. destruct S; [congruence|cbn [length]; lia]. Qed.

Lemma rep_total l ch S : rep (Node l (len S) ch) S -> fold_right Z.add 0 (map t_weight ch) = len S - ending [] S.
Proof.
  intros R. inversion R as [l' ch' S' N C T H1 H2]. subst.
  set (lab := fun n => match n with Label x => x | _ => 0 end).
  rewrite <- (tails_total (map (fun c => lab (t_label c)) ch)).
  - rewrite map_map. f_equal. apply map_ext_in. intros c Hc. destruct (C c Hc) as (x & A & B & D). rewrite A. cbn [lab]. apply rep_weight, D.
  - clear R T. induction ch as [|c ch IH]; cbn; constructor.
    + intros F. apply in_map_iff in F. destruct F as (d & D1 & D2). inversion N; subst. apply H2. apply in_map_iff. exists d. split; [|exact D2].
      destruct (C c (or_introl eq_refl)) as (x & A & _), (C d (or_intror D2)) as (y & B & _). rewrite A, B in *. cbn in D1. congruence.
    + apply IH; [inversion N; assumption | intros d Hd; apply C; right; exact Hd].
  - intros x Hx. specialize (T x Hx). apply in_map_iff in T. destruct T as (c & C1 & C2). apply in_map_iff. exists c. rewrite C1. split; [reflexivity|exact C2].
Qed.

Lemma NoDup_snoc {X} (l : list X) x : NoDup l -> ~ In x l -> NoDup (l ++ [x]).
Proof. intros N H. apply (Permutation_NoDup (l := x :: l)); [apply Permutation_cons_append|]. constructor; assumption. Qed.
Lemma rep_final : forall t S b, rep t S -> len S < 2 ^ 64 -> final b (AddOtherChildrenToNode b t) S.
Proof.
  apply (tree_rect_all (fun t => forall S b, rep t S -> len S < 2 ^ 64 -> final b (AddOtherChildrenToNode b t) S)).
  intros l w ch IH S b R L. inversion R as [l' ch' S' N C T H1 H2]. subst. cbn [AddOtherChildrenToNode].
  pose proof (rep_total _ _ _ R) as Tot. pose proof (ending_le [] S) as EL. rewrite through_nil in EL.
  set (ch' := map (AddOtherChildrenToNode false) ch) in *.
  assert (Elab : map t_label ch' = map t_label ch).
  { unfold ch'. rewrite map_map. apply map_ext. apply add_other_label. }
  assert (Ew : map t_weight ch' = map t_weight ch).
  { unfold ch'. rewrite map_map. apply map_ext. apply add_other_weight. }
  assert (C' : forall c, In c ch' -> exists x, t_label c = Label x /\ tails x S <> [] /\ final false c (tails x S)).
  { intros c Hc. apply in_map_iff in Hc. destruct Hc as (d & <- & Hd). destruct (C d Hd) as (x & A & B & D). exists x.
    rewrite add_other_label. split; [exact A|]. split; [exact B|]. apply IH; [exact Hd|exact D|].
    pose proof (tails_len x S). lia. }
  assert (W : fold_left (fun a c => wrapU 64 (a + t_weight c)) ch' 0 = len S - ending [] S).
  { rewrite fold_weights.
    - rewrite Ew. lia.
    - lia.
    - intros c Hc. apply in_map_iff in Hc. destruct Hc as (d & <- & Hd). rewrite add_other_weight.
      destruct (C d Hd) as (x & A & B & D). rewrite (rep_weight _ _ D). lia.
    - rewrite Ew. lia. }
  rewrite W. destruct (Z.eqb_spec (len S - ending [] S) 0) as [E|E].
  - assert (ch' = []).
    { destruct ch' as [|c cs]; [reflexivity|]. destruct (C' c (or_introl eq_refl)) as (x & _ & B & _).
      pose proof (tails_len x S). pose proof (len_pos _ B). lia. }
    apply final_intro; rewrite ?Elab; auto.
    + intros F. lia.
    + congruence.
  - unfold wrapU. rewrite Z.mod_small by lia. replace (len S - (len S - ending [] S)) with (ending [] S) by lia.
    change (if b then OtherOutside else Other) with (other_label b).
    apply final_intro.
    + rewrite map_app, Elab. cbn [map t_label]. apply NoDup_snoc; [exact N|]. intros F. apply in_map_iff in F. destruct F as (c & C1 & C2).
      destruct (C c C2) as (x & A & _). destruct b; cbn in C1; congruence.
    + intros c Hc. apply in_app_or in Hc. destruct Hc as [Hc|[<-|[]]]; [left; exact (C' c Hc)|]. right. split; [reflexivity|lia].
    + intros x Hx. rewrite map_app, Elab. apply in_or_app. left. apply T, Hx.
    + intros _. apply in_or_app. right. left. reflexivity.
    + intros _. rewrite map_app, fold_right_app_add, Ew, Tot. cbn. lia.
Qed.
(* std::sort changes nothing but the order *)
Lemma Forall2_in_r {X Y} (P : X -> Y -> Prop) l l' y : Forall2 P l l' -> In y l' -> exists x, In x l /\ P x y.
Proof. intros F. induction F; intros []; [subst; eauto using in_eq|]. destruct (IHF H0) as (z & Z1 & Z2). eauto using in_cons. Qed.
Lemma Forall2_in_l {X Y} (P : X -> Y -> Prop) l l' x : Forall2 P l l' -> In x l -> exists y, In y l' /\ P x y.
Proof. intros F. induction F; intros []; [subst; eauto using in_eq|]. destruct (IHF H0) as (z & Z1 & Z2). eauto using in_cons. Qed.
Lemma sort_label t t' : SortNode t t' -> t_label t' = t_label t. Proof. intros []. reflexivity. Qed.
Lemma sort_weight t t' : SortNode t t' -> t_weight t' = t_weight t. Proof. intros []. reflexivity. Qed.
Lemma sort_children_map {X} (f : tree -> X) (H : forall t t', SortNode t t' -> f t' = f t) ch ch1 ch2 :
  Permutation ch ch1 -> Forall2 SortNode ch1 ch2 -> Permutation (map f ch) (map f ch2).
Proof.
  intros P F. rewrite (Permutation_map f P). clear P. replace (map f ch2) with (map f ch1); [reflexivity|].
  induction F as [|a b l l' S F IH]; [reflexivity|]. cbn. rewrite IH, (H _ _ S). reflexivity.
Qed.
Lemma Permutation_sum (a b : list Z) : Permutation a b -> fold_right Z.add 0 a = fold_right Z.add 0 b.
Proof. intros P. induction P; cbn; lia. Qed.
Lemma sort_final : forall t t' S b, final b t S -> SortNode t t' -> final b t' S.
Proof.
  apply (tree_rect_all (fun t => forall t' S b, final b t S -> SortNode t t' -> final b t' S)).
  intros l w ch IH t' S b F Q. inversion F as [b' l' ch0 S' N C T O W E1 E2]. subst.
  inversion Q as [l' w' ch' ch1 ch2 [P Srt] F2 E3 E4]. subst.
  pose proof (sort_children_map _ sort_label _ _ _ P F2) as PL. pose proof (sort_children_map _ sort_weight _ _ _ P F2) as PW.
  apply final_intro.
  - apply (Permutation_NoDup PL N).
  - intros c Hc. destruct (Forall2_in_r _ _ _ _ F2 Hc) as (d & D1 & D2). apply (Permutation_in _ (Permutation_sym P)) in D1.
    destruct (C d D1) as [(x & A & B & D)|[-> D]].
    + left. exists x. rewrite (sort_label _ _ D2). split; [exact A|]. split; [exact B|]. apply (IH d D1 c _ _ D D2).
    + right. split; [|exact D]. inversion D2 as [? ? ? ? ? [P0 _] F0]. subst. apply Permutation_nil in P0. subst. inversion F0. reflexivity.
  - intros x Hx. apply (Permutation_in _ PL), T, Hx.
  - intros H. specialize (O H). apply (Permutation_in _ P) in O. destruct (Forall2_in_l _ _ _ _ F2 O) as (d & D1 & D2).
    inversion D2 as [? ? ? ? ? [P0 _] F0]. subst. apply Permutation_nil in P0. subst. inversion F0. subst. exact D1.
  - intros H. rewrite <- W; [symmetry; apply Permutation_sum, PW|]. intros ->. apply Permutation_nil in P. subst. inversion F2. congruence.
Qed.
Lemma view_final stacks t : ProfileTreeView stacks t -> len stacks < 2 ^ 64 -> final true t stacks.
Proof. intros V L. refine (sort_final _ _ _ _ (rep_final _ _ _ (AddStacks_rep _ L) L) V). Qed.

(* all nodes with their paths *)
Fixpoint paths (t : tree) : list (list node_label * Z) :=
  match t with Node l w ch => ([], w) :: flat_map (fun c => map (fun pw => (t_label c :: fst pw, snd pw)) (paths c)) ch end.
Definition proper_paths (t : tree) : list (list node_label * Z) :=
  flat_map (fun c => map (fun pw => (t_label c :: fst pw, snd pw)) (paths c)) (t_children t).
Lemma last_cons {X} (l : list X) a b d : last (a :: b :: l) d = last (b :: l) d. Proof. reflexivity. Qed.
Lemma print_paths : forall t k, 0 < k ->
  PrintNode k t = map (fun pw => (k + len (fst pw), snd pw, last (t_label t :: fst pw) NullLabel)) (paths t).
Proof.
  apply (tree_rect_all (fun t => forall k, 0 < k -> PrintNode k t = map (fun pw => (k + len (fst pw), snd pw, last (t_label t :: fst pw) NullLabel)) (paths t))).
  intros l w ch IH k Hk. cbn [PrintNode paths map fst snd t_label]. replace (k =? 0) with false by lia. cbn [app].
  f_equal; [cbn; do 2 f_equal; lia|]. rewrite !flat_map_concat_map, concat_map, map_map. f_equal. apply map_ext_in. intros c Hc.
  rewrite (IH c Hc (k + 1)) by lia. rewrite map_map. apply map_ext. intros [p v]. cbn [fst snd length]. f_equal. f_equal. lia.
Qed.
Lemma print_root t : PrintNode 0 t = map print_line (proper_paths t).
Proof.
  destruct t as [l w ch]. unfold proper_paths. cbn [PrintNode t_children Z.eqb app].
  rewrite !flat_map_concat_map, concat_map, map_map. f_equal. apply map_ext. intros c.
  rewrite print_paths by lia. rewrite map_map. apply map_ext. intros [p v]. unfold print_line. cbn [fst snd length]. f_equal. f_equal. lia.
Qed.
Lemma paths_nodup : forall t S b, final b t S -> NoDup (map fst (paths t)).
Proof.
  apply (tree_rect_all (fun t => forall S b, final b t S -> NoDup (map fst (paths t)))).
  intros l w ch IH S b F. inversion F as [b' l' ch0 S' N C T O W E1 E2]. subst. cbn [paths map fst].
  assert (G : NoDup (map fst (flat_map (fun c => map (fun pw => (t_label c :: fst pw, snd pw)) (paths c)) ch))).
  { assert (ND : forall c, In c ch -> NoDup (map fst (paths c))).
    { intros c Hc. destruct (C c Hc) as [(x & A & B & D)|[-> _]]; [exact (IH c Hc _ _ D)|]. cbn. constructor; [intros []|constructor]. }
    clear IH F C T O W. induction ch as [|c ch IHc]; cbn [flat_map]; [constructor|]. rewrite map_app, map_map.
    inversion N as [|? ? N1 N2]; subst.
    assert (G1 : NoDup (map (fun pw : list node_label * Z => fst (t_label c :: fst pw, snd pw)) (paths c))).
    { cbn [fst]. rewrite <- (map_map fst (cons (t_label c))). apply FinFun.Injective_map_NoDup; [intros u v E; congruence|]. apply ND. left. reflexivity. }
    assert (G2 : NoDup (map fst (flat_map (fun c => map (fun pw => (t_label c :: fst pw, snd pw)) (paths c)) ch))).
    { apply IHc; [exact N2|]. intros d Hd. apply ND. right. exact Hd. }
    assert (Dj : forall p, In p (map (fun pw : list node_label * Z => fst (t_label c :: fst pw, snd pw)) (paths c)) ->
      ~ In p (map fst (flat_map (fun c => map (fun pw => (t_label c :: fst pw, snd pw)) (paths c)) ch))).
    { intros p H1 H2. apply in_map_iff in H1. destruct H1 as (pw & <- & _). apply in_map_iff in H2. destruct H2 as (qv & Q1 & Q2).
      apply in_flat_map in Q2. destruct Q2 as (d & D1 & D2). apply in_map_iff in D2. destruct D2 as (rv & R1 & _). subst qv. cbn in Q1.
      apply N1. injection Q1 as Q1 _. rewrite <- Q1. apply in_map, D1. }
    clear - G1 G2 Dj. induction (map (fun pw : list node_label * Z => fst (t_label c :: fst pw, snd pw)) (paths c)) as [|p l IHl]; [exact G2|].
    cbn [app]. inversion G1; subst. constructor.
    - intros H. apply in_app_or in H. destruct H as [H|H]; [contradiction|]. exact (Dj p (or_introl eq_refl) H).
    - apply IHl; [assumption|]. intros q Hq. apply Dj. right. exact Hq. }
  constructor; [|exact G]. intros H. apply in_map_iff in H. destruct H as (pw & E & H). apply in_flat_map in H.
  destruct H as (c & _ & H). apply in_map_iff in H. destruct H as (qv & <- & _). discriminate.
Qed.

(* the nodes below the root *)
Inductive gline (b : bool) (stacks : list (list Z)) : list node_label -> Z -> Prop :=
  | gline_label p : through p stacks > 0 -> p <> [] -> gline b stacks (map Label p) (through p stacks)
  | gline_other p : p <> [] -> through p stacks > ending p stacks -> gline b stacks (map Label p ++ [Other]) (ending p stacks)
  | gline_here : through [] stacks > ending [] stacks -> gline b stacks [other_label b] (ending [] stacks).
Lemma gline_root S p w : gline true S p w <-> line_of S p w.
Proof. split; intros []; constructor; auto. Qed.
Lemma through_pos_tails x p S : through (x :: p) S > 0 -> tails x S <> [].
Proof. rewrite through_cons. intros H E. rewrite E in H. cbn in H. unfold through in H. cbn in H. lia. Qed.
Lemma in_paths_nil t w : In ([], w) (paths t) <-> w = t_weight t.
Proof.
  destruct t as [l v ch]. cbn [paths t_weight In]. split.
  - intros [E|H]; [congruence|]. apply in_flat_map in H. destruct H as (c & _ & H). apply in_map_iff in H. destruct H as (q & E & _). discriminate.
  - intros ->. left. reflexivity.
Qed.
Lemma in_paths_cons l v ch n p w : In (n :: p, w) (paths (Node l v ch)) <-> exists c, In c ch /\ t_label c = n /\ In (p, w) (paths c).
Proof.
  cbn [paths In]. split.
  - intros [E|H]; [discriminate|]. apply in_flat_map in H. destruct H as (c & C1 & H). apply in_map_iff in H. destruct H as ([q u] & E & H).
    cbn in E. injection E as <- <- <-. eauto.
  - intros (c & C1 & <- & H). right. apply in_flat_map. exists c. split; [exact C1|]. apply in_map_iff. exists (p, w). auto.
Qed.
Lemma paths_final : forall t S b p w, final b t S -> (In (p, w) (paths t) <-> (p = [] /\ w = len S) \/ gline b S p w).
Proof.
  apply (tree_rect_all (fun t => forall S b p w, final b t S -> (In (p, w) (paths t) <-> (p = [] /\ w = len S) \/ gline b S p w))).
  intros l w0 ch IH S b p w F. inversion F as [b' l' ch0 S' N C T O W E1 E2]. subst.
  destruct p as [|n p].
  { rewrite in_paths_nil. cbn [t_weight]. split; [auto|]. intros [[_ ->]|G]; [reflexivity|]. exfalso. inversion G; subst.
    - destruct p; [congruence|discriminate].
    - destruct p; discriminate. }
  rewrite in_paths_cons. split.
  - intros (c & C1 & C2 & C3). right. destruct (C c C1) as [(x & A & B & D)|[-> D]].
    + rewrite A in C2. subst n. apply (IH c C1 _ _ _ _ D) in C3. destruct C3 as [[-> ->]|G].
      * rewrite <- through_nil, <- through_cons. apply (gline_label b S [x]); [|discriminate]. rewrite through_cons, through_nil.
        pose proof (len_pos _ B). lia.
      * inversion G; subst.
        -- rewrite <- through_cons in *. apply (gline_label b S (x :: p0)); [assumption|discriminate].
        -- rewrite <- ending_cons, <- through_cons in *. apply (gline_other b S (x :: p0)); [discriminate|assumption].
        -- rewrite <- ending_cons, <- through_cons in *. apply (gline_other b S [x]); [discriminate|assumption].
    + cbn in C2, C3. subst n. destruct C3 as [E|[]]. injection E as <- <-. apply gline_here. rewrite through_nil. lia.
  - intros [[E _]|G]; [discriminate|].
    assert (K : forall x q v, tails x S <> [] -> (q = [] /\ v = len (tails x S)) \/ gline false (tails x S) q v ->
      exists c, In c ch /\ t_label c = Label x /\ In (q, v) (paths c)).
    { intros x q v Hx H. specialize (T x Hx). apply in_map_iff in T. destruct T as (c & C1 & C2). exists c. split; [exact C2|]. split; [exact C1|].
      destruct (C c C2) as [(y & A & B & D)|[-> D]]; [|destruct b; discriminate]. replace y with x in D by congruence.
      apply (IH c C2 _ _ _ _ D), H. }
    inversion G as [q Hq Hn E1 E2 | q Hn Hq E1 E2 | Hq E1 E2].
    + destruct q as [|x q]; [congruence|]. cbn [map] in E1. injection E1 as <- <-. apply K; [exact (through_pos_tails _ _ _ Hq)|].
      rewrite through_cons in *. destruct q as [|y q]; [left; rewrite through_nil; auto|]. right. apply gline_label; [exact Hq|discriminate].
    + destruct q as [|x q]; [congruence|]. cbn [map app] in E1. injection E1 as <- <-. apply K.
      * apply (through_pos_tails x q). pose proof (ending_le (x :: q) S). lia.
      * right. rewrite ending_cons, through_cons in *. destruct q as [|y q]; [apply (gline_here false); exact Hq|].
        apply (gline_other false _ (y :: q)); [discriminate|exact Hq].
    + subst. rewrite through_nil in Hq. exists (Node (other_label b) (ending [] S) []). split; [apply O; lia|]. split; [reflexivity|]. left. reflexivity.
Qed.

Theorem profile_lines stacks t : len stacks < 2 ^ 64 -> ProfileTreeView stacks t ->
  t_weight t = len stacks /\
  exists lines, PrintNode 0 t = map print_line lines /\ NoDup (map fst lines) /\ forall p w, In (p, w) lines <-> line_of stacks p w.
Proof.
  intros L V. pose proof (view_final _ _ V L) as F. split; [inversion F; reflexivity|].
  exists (proper_paths t). split; [apply print_root|]. pose proof (paths_nodup _ _ _ F) as N. destruct t as [l w ch]. unfold proper_paths.
  cbn [paths t_children map fst] in *. split; [inversion N; assumption|]. intros p v. rewrite <- gline_root.
  pose proof (paths_final _ _ _ p v F) as P. cbn [paths In] in P. split; intros H.
  - destruct P as [P _]. destruct (P (or_intror H)) as [[-> _]|G]; [|exact G].
    exfalso. apply in_flat_map in H. destruct H as (c & _ & H). apply in_map_iff in H. destruct H as (q & E & _). discriminate.
  - destruct P as [_ P]. destruct (P (or_intror H)) as [E|G]; [|exact G]. exfalso. injection E as <- _.
    inversion H as [q Q1 Q2 E|q Q1 Q2 E|]; destruct q; try congruence; discriminate.
Qed.
Lemma subtree_final : forall t n, subtree n t -> forall b S, final b t S -> (exists b' S', final b' n S') \/ t_children n = [].
Proof.
  intros t n H. induction H as [t|n l w ch c Hc Hs IH]; intros b S F; [left; eauto|].
  inversion F as [b' l' ch0 S' N C T O W E1 E2]. subst. destruct (C c Hc) as [(x & _ & _ & D)|[-> _]]; [exact (IH _ _ D)|].
  right. inversion Hs; [reflexivity|contradiction].
Qed.
Theorem weights_conserved stacks t n : len stacks < 2 ^ 64 -> ProfileTreeView stacks t -> subtree n t ->
  t_children n <> [] -> fold_right Z.add 0 (map t_weight (t_children n)) = t_weight n.
Proof.
  intros L V H Hn. destruct (subtree_final _ _ H _ _ (view_final _ _ V L)) as [(b & S & F)|F]; [|congruence].
  inversion F as [b' l' ch0 S' N C T O W E1 E2]. subst. cbn in *. apply W, Hn.
Qed.
(* siblings are in order of decreasing weight *)
Lemma sort_sorted : forall t t', SortNode t t' -> forall n, subtree n t' -> StronglySorted (fun a b => t_weight a >= t_weight b) (t_children n).
Proof.
  apply (tree_rect_all (fun t => forall t', SortNode t t' -> forall n, subtree n t' -> StronglySorted (fun a b => t_weight a >= t_weight b) (t_children n))).
  intros l w ch IH t' Q n H. inversion Q as [l' w' ch' ch1 ch2 [P Srt] F2 E3 E4]. subst.
  inversion H as [|n' l' w' ch' c Hc Hs]; subst.
  - cbn [t_children]. clear - Srt F2. induction F2 as [|a b la lb S F IH]; [constructor|]. inversion Srt as [|? ? S1 S2]; subst.
    constructor; [apply IH, S1|]. apply Forall_forall. intros y Hy. destruct (Forall2_in_r _ _ _ _ F Hy) as (x & X1 & X2).
    rewrite Forall_forall in S2. specialize (S2 x X1). unfold CompareNodes in S2. rewrite (sort_weight _ _ S), (sort_weight _ _ X2). lia.
  - destruct (Forall2_in_r _ _ _ _ F2 Hc) as (d & D1 & D2). apply (Permutation_in _ (Permutation_sym P)) in D1. exact (IH d D1 c D2 n Hs).
Qed.
Lemma insert_sorted (x : tree) l : StronglySorted (fun a b => ~ CompareNodes b a) l ->
  exists l', Permutation (x :: l) l' /\ StronglySorted (fun a b => ~ CompareNodes b a) l'.
Proof.
  induction l as [|y l IH]; intros Q; [exists [x]; split; [reflexivity|repeat constructor]|]. inversion Q as [|? ? Q1 Q2]; subst.
  destruct (Z_le_gt_dec (t_weight y) (t_weight x)) as [L|L].
  - exists (x :: y :: l). split; [reflexivity|]. constructor; [exact Q|]. constructor; [unfold CompareNodes; lia|].
    eapply Forall_impl; [|exact Q2]. intros z Hz. unfold CompareNodes in *. lia.
  - destruct (IH Q1) as (l' & P & R). exists (y :: l'). split; [rewrite perm_swap; constructor; exact P|]. constructor; [exact R|].
    apply Forall_forall. intros z Hz. apply (Permutation_in _ (Permutation_sym P)) in Hz. destruct Hz as [<-|Hz]; [unfold CompareNodes; lia|].
    rewrite Forall_forall in Q2. exact (Q2 z Hz).
Qed.
Lemma sort_exists l : exists l', sorts_to l l'.
Proof.
  induction l as [|x l (l' & P & Q)]; [exists []; split; constructor|]. destruct (insert_sorted x l' Q) as (l2 & P2 & Q2). exists l2.
  split; [rewrite <- P2; constructor; exact P|exact Q2].
Qed.
Lemma SortNode_exists : forall t, exists t', SortNode t t'.
Proof.
  apply tree_rect_all. intros l w ch IH. destruct (sort_exists ch) as (ch1 & P).
  assert (G : exists ch2, Forall2 SortNode ch1 ch2).
  { assert (IH' : forall c, In c ch1 -> exists t', SortNode c t') by (intros c Hc; apply IH, (Permutation_in _ (Permutation_sym (proj1 P))), Hc).
    clear - IH'. induction ch1 as [|c ch1 IHc]; [exists []; constructor|]. destruct (IH' c (or_introl eq_refl)) as (t' & T).
    destruct IHc as (ch2 & F); [intros d Hd; apply IH'; right; exact Hd|]. exists (t' :: ch2). constructor; assumption. }
  destruct G as (ch2 & F). exists (Node l w ch2). exact (SortNode_intro l w ch ch1 ch2 P F).
Qed.
Theorem view_exists stacks : exists t, ProfileTreeView stacks t.
Proof. apply SortNode_exists. Qed.
Theorem siblings_sorted stacks t n : ProfileTreeView stacks t -> subtree n t ->
  StronglySorted (fun a b => t_weight a >= t_weight b) (t_children n).
Proof. intros V H. exact (sort_sorted _ _ V n H). Qed.
