From Verif Require Import Base BaseLemmas FixedPointModel CommonModel PackModel OutputModel OutputSpec.
From Coq Require Import FinFun.

Lemma zrange_In n i : In i (zrange n) <-> 0 <= i < n.
Proof.
  unfold zrange. rewrite in_map_iff. split.
  - intros (k & <- & H). apply in_seq in H. lia.
  - intros H. exists (Z.to_nat i). split; [lia|]. apply in_seq. lia.
Qed.
Lemma zrange_nth n i : 0 <= i < n -> nth_error (zrange n) (Z.to_nat i) = Some i.
Proof.
  intros H. unfold zrange. rewrite nth_error_map.
  rewrite (nth_error_nth' (seq 0 (Z.to_nat n)) O) by (rewrite seq_length; lia).
  rewrite seq_nth by lia. cbn. f_equal. lia.
Qed.
Lemma zrange_NoDup n : NoDup (zrange n).
Proof.
  unfold zrange. apply Injective_map_NoDup; [intros a b; lia|]. apply seq_NoDup.
Qed.
Lemma mapM_some {A B} (f : A -> option B) g l :
  (forall x, In x l -> f x = Some (g x)) -> mapM f l = Some (map g l).
Proof.
  induction l as [|a t IH]; cbn; [reflexivity|]. intros H.
  rewrite H by (left; reflexivity). cbn. rewrite IH by (intros; apply H; right; assumption). reflexivity.
Qed.

Lemma idx_mod_div R C i : 0 < R -> 0 < C -> 0 <= i < R * C -> 0 <= i mod R < R /\ 0 <= i / R < C.
Proof.
  intros HR HC Hi. split; [apply Z.mod_pos_bound; exact HR|].
  split; [apply Z.div_pos; lia|]. apply Z.div_lt_upper_bound; lia.
Qed.
Lemma idx_mk R r c : 0 <= r < R -> (r + c * R) mod R = r /\ (r + c * R) / R = c.
Proof.
  intros Hr. split.
  - rewrite Z_mod_plus_full. apply Z.mod_small. exact Hr.
  - rewrite Z_div_plus_full by lia. rewrite Z.div_small by exact Hr. lia.
Qed.
Lemma idx_bound R C r c : 0 <= r < R -> 0 <= c < C -> 0 <= r + c * R < R * C.
Proof. intros Hr Hc. assert ((c + 1) * R <= C * R) by (apply Z.mul_le_mono_nonneg_r; lia). assert (0 <= c * R) by (apply Z.mul_nonneg_nonneg; lia). lia. Qed.

Definition is_block (b : block) (R C : Z) (g : Z -> Z -> Z) : Prop :=
  b_rows b = R /\ b_cols b = C /\ b_reg b = map (fun i => g (i mod R) (i / R)) (zrange (R * C)).

Lemma is_block_reg b R C g r c : is_block b R C g -> 0 <= r < R -> 0 <= c < C ->
  reg b (r + c * R) = Some (g r c).
Proof.
  intros (E1 & E2 & E3) Hr Hc. pose proof (idx_bound R C r c Hr Hc) as B.
  unfold reg. replace (0 <=? r + c * R) with true by lia. rewrite E3, nth_error_map.
  rewrite zrange_nth by exact B. cbn. destruct (idx_mk R r c Hr) as [-> ->]. reflexivity.
Qed.
Lemma is_block_ext b R C g h : 0 < R -> 0 < C -> (forall r c, 0 <= r < R -> 0 <= c < C -> g r c = h r c) ->
  is_block b R C g -> is_block b R C h.
Proof.
  intros HR HC E (E1 & E2 & E3). split; [exact E1|]. split; [exact E2|]. rewrite E3.
  apply map_ext_in. intros i Hi. apply zrange_In in Hi.
  destruct (idx_mod_div R C i HR HC Hi). apply E; assumption.
Qed.
Lemma block_init_spec R C f g : 0 < R -> 0 < C ->
  (forall r c, 0 <= r < R -> 0 <= c < C -> f r c = Some (g r c)) ->
  exists b, block_init R C f = Some b /\ is_block b R C g.
Proof.
  intros HR HC H. unfold block_init.
  rewrite (mapM_some _ (fun i => g (i mod R) (i / R))).
  - cbn. eexists. split; [reflexivity|]. repeat split.
  - intros i Hi. apply zrange_In in Hi. destruct (idx_mod_div R C i HR HC Hi). apply H; assumption.
Qed.
Lemma block_map_spec f b R C g h : 0 < R -> 0 < C -> is_block b R C g ->
  (forall r c, 0 <= r < R -> 0 <= c < C -> f (g r c) = Some (h r c)) ->
  exists b', block_map f b = Some b' /\ is_block b' R C h.
Proof.
  intros HR HC (E1 & E2 & E3) H. unfold block_map. rewrite E3.
  assert (M : forall l, (forall i, In i l -> 0 <= i < R * C) ->
     mapM f (map (fun i => g (i mod R) (i / R)) l) = Some (map (fun i => h (i mod R) (i / R)) l)).
  { induction l as [|a t IH]; cbn; [reflexivity|]. intros HH.
    destruct (idx_mod_div R C a HR HC ltac:(apply HH; left; reflexivity)) as [B1 B2].
    rewrite H by assumption. cbn. rewrite IH by (intros; apply HH; right; assumption). reflexivity. }
  rewrite M by (intros i; apply zrange_In). cbn. eexists. split; [reflexivity|].
  repeat split; assumption.
Qed.

(* a block standing for an R x C block when broadcast *)
Definition views (b : block) (R C : Z) (g : Z -> Z -> Z) : Prop :=
  (b_rows b = R \/ b_rows b = 1) /\ (b_cols b = C \/ b_cols b = 1) /\
  is_block b (b_rows b) (b_cols b) g /\
  (b_rows b = 1 -> forall r c, 0 <= r < R -> 0 <= c < C -> g r c = g 0 c) /\
  (b_cols b = 1 -> forall r c, 0 <= r < R -> 0 <= c < C -> g r c = g r 0).

Lemma views_full b R C g : is_block b R C g -> views b R C g.
Proof.
  intros H. pose proof H as (E1 & E2 & _). unfold views. rewrite E1, E2.
  repeat split; auto.
  - destruct H as (_&_&?); assumption.
  - intros -> r c Hr Hc. f_equal; lia.
  - intros -> r c Hr Hc. f_equal; lia.
Qed.
Lemma views_is b R C g : views b R C g -> b_rows b = R -> b_cols b = C -> is_block b R C g.
Proof. intros (_&_&H&_) E1 E2. rewrite E1, E2 in H. exact H. Qed.

Lemma views_reg b R C g Rows Cols r c : 0 < R -> 0 < C -> views b R C g ->
  (Rows = R \/ Rows = 1 /\ b_rows b = 1) -> (Cols = C \/ Cols = 1 /\ b_cols b = 1) ->
  0 <= r < Rows -> 0 <= c < Cols ->
  reg b ((if b_rows b =? Rows then r else 0) + (if b_cols b =? Cols then c else 0) * b_rows b) = Some (g r c).
Proof.
  intros HR HC (V1&V2&V3&V4&V5) HRows HCols Hr Hc.
  assert (Hr' : 0 <= r < R) by lia. assert (Hc' : 0 <= c < C) by lia.
  set (r' := if b_rows b =? Rows then r else 0). set (c' := if b_cols b =? Cols then c else 0).
  assert (Br : 0 <= r' < b_rows b) by (unfold r'; destruct (b_rows b =? Rows) eqn:?; lia).
  assert (Bc : 0 <= c' < b_cols b) by (unfold c'; destruct (b_cols b =? Cols) eqn:?; lia).
  rewrite (is_block_reg _ _ _ _ _ _ V3 Br Bc). f_equal.
  assert (E1 : g r' c' = g r c').
  { unfold r'. destruct (b_rows b =? Rows) eqn:?; [reflexivity|]. symmetry. apply V4; lia. }
  rewrite E1. unfold c'. destruct (b_cols b =? Cols) eqn:?; [reflexivity|]. symmetry. apply V5; lia.
Qed.

Lemma views_map f b R C g h : 0 < R -> 0 < C -> views b R C g ->
  (forall r c, 0 <= r < R -> 0 <= c < C -> f (g r c) = Some (h r c)) ->
  exists b', block_map f b = Some b' /\ views b' R C h /\ b_rows b' = b_rows b /\ b_cols b' = b_cols b.
Proof.
  intros HR HC (V1&V2&V3&V4&V5) H.
  destruct (block_map_spec f b (b_rows b) (b_cols b) g h) as (b' & E & Hb'); [lia|lia|exact V3| |].
  - intros r c Hr Hc. apply H; lia.
  - exists b'. split; [exact E|]. pose proof Hb' as (E1&E2&_).
    split; [|split; assumption]. unfold views. rewrite E1, E2. split; [exact V1|]. split; [exact V2|].
    split; [exact Hb'|]. split.
    + intros Eq r c Hr Hc. pose proof (H r c Hr Hc) as A1. rewrite (V4 Eq r c Hr Hc) in A1.
      rewrite (H 0 c ltac:(lia) Hc) in A1. congruence.
    + intros Eq r c Hr Hc. pose proof (H r c Hr Hc) as A1. rewrite (V5 Eq r c Hr Hc) in A1.
      rewrite (H r 0 Hr ltac:(lia)) in A1. congruence.
Qed.

Lemma max_check a b R : 0 < R -> (a = R \/ a = 1) -> (b = R \/ b = 1) ->
  ((a =? Z.max a b) || (a =? 1) = true) /\ ((b =? Z.max a b) || (b =? 1) = true) /\
  0 < Z.max a b <= R /\ (Z.max a b = R \/ Z.max a b = 1 /\ a = 1 /\ b = 1).
Proof. lia. Qed.
Lemma BroadcastImpl_spec op l r R C gl gr g : 0 < R -> 0 < C ->
  views l R C gl -> views r R C gr ->
  (forall i j, 0 <= i < R -> 0 <= j < C -> op (gl i j) (gr i j) = Some (g i j)) ->
  exists b, BroadcastImpl op l r = Some b /\ views b R C g /\
    b_rows b = Z.max (b_rows l) (b_rows r) /\ b_cols b = Z.max (b_cols l) (b_cols r).
Proof.
  intros HR HC Vl Vr H. unfold BroadcastImpl. cbv zeta. unfold guard.
  pose proof Vl as (L1&L2&L3&L4&L5). pose proof Vr as (R1&R2&R3&R4&R5).
  destruct (max_check (b_rows l) (b_rows r) R HR L1 R1) as (M1&M2&M3&M4).
  destruct (max_check (b_cols l) (b_cols r) C HC L2 R2) as (N1&N2&N3&N4).
  set (Rows := Z.max (b_rows l) (b_rows r)) in *. set (Cols := Z.max (b_cols l) (b_cols r)) in *.
  rewrite M1, M2, N1, N2. cbn [bind].
  destruct (block_init_spec Rows Cols (fun rr cc =>
     let* x := reg l ((if b_rows l =? Rows then rr else 0) + (if b_cols l =? Cols then cc else 0) * b_rows l) in
     let* y := reg r ((if b_rows r =? Rows then rr else 0) + (if b_cols r =? Cols then cc else 0) * b_rows r) in
     op x y) g) as (b & E & Hb).
  - apply M3.
  - apply N3.
  - intros i j Hi Hj. clear L3 R3.
    assert (HRl : Rows = R \/ Rows = 1 /\ b_rows l = 1) by (destruct M4 as [?|(?&?&?)]; auto).
    assert (HRr : Rows = R \/ Rows = 1 /\ b_rows r = 1) by (destruct M4 as [?|(?&?&?)]; auto).
    assert (HCl : Cols = C \/ Cols = 1 /\ b_cols l = 1) by (destruct N4 as [?|(?&?&?)]; auto).
    assert (HCr : Cols = C \/ Cols = 1 /\ b_cols r = 1) by (destruct N4 as [?|(?&?&?)]; auto).
    rewrite (views_reg l R C gl) by assumption. cbn [bind].
    rewrite (views_reg r R C gr) by assumption. cbn [bind].
    apply H; clear - Hi Hj M3 N3; lia.
  - exists b. split; [exact E|]. pose proof Hb as (E1&E2&_). split; [|split; assumption].
    unfold views. rewrite E1, E2.
    assert (HRR : Rows = R \/ Rows = 1) by (destruct M4 as [?|(?&?&?)]; auto).
    assert (HCC : Cols = C \/ Cols = 1) by (destruct N4 as [?|(?&?&?)]; auto).
    split; [exact HRR|]. split; [exact HCC|]. split; [exact Hb|]. split.
    + intros Eq i j Hi Hj. pose proof (H i j Hi Hj) as A1.
      assert (T : b_rows l = 1 /\ b_rows r = 1) by (clear - Eq M3 M4 L1 R1; subst Rows; lia).
      rewrite (L4 (proj1 T) i j Hi Hj), (R4 (proj2 T) i j Hi Hj) in A1.
      rewrite (H 0 j) in A1 by (clear - Hi Hj; lia). congruence.
    + intros Eq i j Hi Hj. pose proof (H i j Hi Hj) as A1.
      assert (T : b_cols l = 1 /\ b_cols r = 1) by (clear - Eq N3 N4 L2 R2; subst Cols; lia).
      rewrite (L5 (proj1 T) i j Hi Hj), (R5 (proj2 T) i j Hi Hj) in A1.
      rewrite (H i 0) in A1 by (clear - Hi Hj; lia). congruence.
Qed.

(* commutative operations *)
Lemma Broadcast_comm op l r R C gl gr g : 0 < R -> 0 < C -> (forall x y, op x y = op y x) ->
  views l R C gl -> views r R C gr ->
  (forall i j, 0 <= i < R -> 0 <= j < C -> op (gl i j) (gr i j) = Some (g i j)) ->
  exists b, Broadcast op l r = Some b /\ views b R C g /\
    b_rows b = Z.max (b_rows l) (b_rows r) /\ b_cols b = Z.max (b_cols l) (b_cols r).
Proof.
  intros HR HC Hop Vl Vr H. unfold Broadcast. destruct (ShouldFlip l r).
  - rewrite (Z.max_comm (b_rows l)), (Z.max_comm (b_cols l)).
    apply (BroadcastImpl_spec op r l R C gr gl g); try assumption.
    intros i j Hi Hj. rewrite Hop. apply H; assumption.
  - apply (BroadcastImpl_spec op l r R C gl gr g); assumption.
Qed.

(* any operation, first operand a full block: never flipped *)
Lemma Broadcast_full op l r R C gl gr g : 0 < R -> 0 < C ->
  is_block l R C gl -> views r R C gr ->
  (forall i j, 0 <= i < R -> 0 <= j < C -> op (gl i j) (gr i j) = Some (g i j)) ->
  exists b, Broadcast op l r = Some b /\ is_block b R C g.
Proof.
  intros HR HC Hl Vr H. pose proof Hl as (E1&E2&_). pose proof Vr as (R1&R2&_).
  unfold Broadcast. assert (HS : ShouldFlip l r = false).
  { unfold ShouldFlip. rewrite E1, E2.
    assert (b_rows r * b_cols r <= R * C) by (apply Z.mul_le_mono_nonneg; lia).
    assert ((b_rows r * b_cols r <? R * C) = true \/ b_rows r = R \/ R = 1 \/ b_rows r = 1) by lia. lia. }
  rewrite HS.
  destruct (BroadcastImpl_spec op l r R C gl gr g HR HC (views_full _ _ _ _ Hl) Vr H) as (b & E & V & B1 & B2).
  exists b. split; [exact E|]. apply views_is; [exact V|lia|lia].
Qed.

Lemma MulAdd_comm m x y a : MulAdd m x y a = MulAdd m y x a.
Proof. unfold MulAdd. rewrite Z.mul_comm. reflexivity. Qed.
Lemma BroadcastMulAddImpl_spec m l r acc R C gl gr ga g : 0 < R -> 0 < C ->
  views l R C gl -> views r R C gr -> is_block acc R C ga ->
  (forall i j, 0 <= i < R -> 0 <= j < C -> MulAdd m (gl i j) (gr i j) (ga i j) = Some (g i j)) ->
  exists b, BroadcastMulAddImpl m l r acc = Some b /\ is_block b R C g.
Proof.
  intros HR HC Vl Vr Ha H. unfold BroadcastMulAddImpl. cbv zeta. unfold guard.
  pose proof Vl as (L1&L2&_). pose proof Vr as (R1&R2&_). pose proof Ha as (A1&A2&_).
  rewrite A1, A2.
  replace ((b_rows l =? R) || (b_rows l =? 1)) with true by lia.
  replace ((b_rows r =? R) || (b_rows r =? 1)) with true by lia.
  replace ((b_cols l =? C) || (b_cols l =? 1)) with true by lia.
  replace ((b_cols r =? C) || (b_cols r =? 1)) with true by lia. cbn [bind].
  apply block_init_spec; try assumption. intros i j Hi Hj.
  rewrite (views_reg l R C gl) by (assumption || lia). cbn [bind].
  rewrite (views_reg r R C gr) by (assumption || lia). cbn [bind].
  rewrite (is_block_reg acc R C ga) by assumption. cbn [bind]. apply H; assumption.
Qed.
Lemma BroadcastMulAdd_spec m l r acc R C gl gr ga g : 0 < R -> 0 < C ->
  views l R C gl -> views r R C gr -> is_block acc R C ga ->
  (forall i j, 0 <= i < R -> 0 <= j < C -> MulAdd m (gl i j) (gr i j) (ga i j) = Some (g i j)) ->
  exists b, BroadcastMulAdd m l r acc = Some b /\ is_block b R C g.
Proof.
  intros HR HC Vl Vr Ha H. unfold BroadcastMulAdd. destruct (ShouldFlip l r).
  - apply (BroadcastMulAddImpl_spec m r l acc R C gr gl ga g); try assumption.
    intros i j Hi Hj. rewrite MulAdd_comm. apply H; assumption.
  - apply (BroadcastMulAddImpl_spec m l r acc R C gl gr ga g); assumption.
Qed.

(* loading a vector for broadcasting: g is what the vector holds *)
Lemma LoadForBroadcasting_spec R C v pos g : 0 < R -> 0 < C ->
  (forall r c, 0 <= r < R -> 0 <= c < C -> vec_get v (pos + pos_of (vec_shape v) r c) = Some (g r c)) ->
  exists b, LoadForBroadcasting R C v pos = Some b /\ views b R C g /\
    b_rows b = match v with VMap VCol _ => R | _ => 1 end /\
    b_cols b = match v with VMap VRow _ => C | _ => 1 end.
Proof.
  intros HR HC H. unfold LoadForBroadcasting. destruct v as [[|] u|sh x s].
  - destruct (block_init_spec R 1 (fun r c => vec_get (VMap VCol u) (pos + r)) g HR ltac:(lia)) as (b & E & Hb).
    + intros r c Hr Hc. rewrite <- (H r c) by lia. reflexivity.
    + exists b. split; [exact E|]. pose proof Hb as (E1&E2&_). split; [|split; assumption].
      unfold views. rewrite E1, E2. split; [auto|]. split; [auto|]. split; [exact Hb|]. split.
      * intros -> r c Hr Hc. f_equal; lia.
      * intros _ r c Hr Hc. pose proof (H r c Hr Hc) as A. pose proof (H r 0 Hr ltac:(lia)) as B.
        cbn [vec_shape pos_of] in A, B. congruence.
  - destruct (block_init_spec 1 C (fun r c => vec_get (VMap VRow u) (pos + c)) g ltac:(lia) HC) as (b & E & Hb).
    + intros r c Hr Hc. rewrite <- (H r c) by lia. reflexivity.
    + exists b. split; [exact E|]. pose proof Hb as (E1&E2&_). split; [|split; assumption].
      unfold views. rewrite E1, E2. split; [auto|]. split; [auto|]. split; [exact Hb|]. split.
      * intros _ r c Hr Hc. pose proof (H r c Hr Hc) as A. pose proof (H 0 c ltac:(lia) Hc) as B.
        cbn [vec_shape pos_of] in A, B. congruence.
      * intros -> r c Hr Hc. f_equal; lia.
  - cbn [vec_get] in *.
    assert (G : forall r c, 0 <= r < R -> 0 <= c < C -> g r c = x) by (intros r c Hr Hc; pose proof (H r c Hr Hc); congruence).
    destruct (block_init_spec 1 1 (fun _ _ => Some x) g ltac:(lia) ltac:(lia)) as (b & E & Hb).
    + intros r c Hr Hc. rewrite G by lia. reflexivity.
    + exists b. split; [exact E|]. pose proof Hb as (E1&E2&_). split; [|split; assumption].
      unfold views. rewrite E1, E2. split; [auto|]. split; [auto|]. split; [exact Hb|]. split.
      * intros _ r c Hr Hc. rewrite !G by lia. reflexivity.
      * intros _ r c Hr Hc. rewrite !G by lia. reflexivity.
Qed.

Lemma AddConstant_spec m k b R C g h : 0 < R -> 0 < C -> views b R C g ->
  (forall r c, 0 <= r < R -> 0 <= c < C -> (if k =? 0 then Some (g r c) else norm m 32 (g r c + k)) = Some (h r c)) ->
  exists b', AddConstant m k b = Some b' /\ views b' R C h /\ b_rows b' = b_rows b /\ b_cols b' = b_cols b.
Proof.
  intros HR HC V H. unfold AddConstant. destruct (k =? 0).
  - exists b. split; [reflexivity|]. split; [|split; reflexivity].
    destruct V as (V1&V2&V3&V4&V5). split; [exact V1|]. split; [exact V2|].
    assert (E : forall r c, 0 <= r < R -> 0 <= c < C -> g r c = h r c) by (intros r c Hr Hc; pose proof (H r c Hr Hc); congruence).
    split; [|split].
    + eapply is_block_ext; [lia|lia| |exact V3]. intros r c Hr Hc. apply E; lia.
    + intros Eq r c Hr Hc. rewrite <- !E by lia. apply V4; assumption.
    + intros Eq r c Hr Hc. rewrite <- !E by lia. apply V5; assumption.
  - apply (views_map _ b R C g h); assumption.
Qed.

(* ------------------------------------------------------------------ *)
(* stages, entry by entry *)
Definition getv (o : option Z) : Z := match o with Some x => x | None => 0 end.
Lemma bind_some {A B} (x : option A) (f : A -> option B) y : bind x f = Some y -> exists a, x = Some a /\ f a = Some y.
Proof. destruct x as [a|]; cbn; [|discriminate]. intros H. exists a. split; [reflexivity|exact H]. Qed.

Lemma entry_of_get v row col r c :
  entry_of v (row + r) (col + c) = vec_get v (pos_of (vec_shape v) row col + pos_of (vec_shape v) r c).
Proof. destruct v as [[|] u|sh x s]; cbn; unfold rd; reflexivity. Qed.

Lemma sat3_eq lo hi x : lo <= hi -> sat3 lo hi x = Z.max lo (Z.min hi x).
Proof. intros H. unfold sat3. destruct (x >? hi) eqn:?; [lia|]. destruct (x <? lo) eqn:?; lia. Qed.

Section Stage.
Variables (m : ovf) (R C row col : Z).
Hypothesis HR : 0 < R.
Hypothesis HC : 0 < C.

Ltac use_map := eapply block_map_spec; [exact HR|exact HC|eassumption|].

Lemma load_entry v (P : Z -> Z -> Z -> Prop) :
  (forall r c, 0 <= r < R -> 0 <= c < C -> exists x, entry_of v (row + r) (col + c) = Some x /\ P r c x) ->
  exists b g, LoadForBroadcasting R C v (pos_of (vec_shape v) row col) = Some b /\ views b R C g /\
    (forall r c, 0 <= r < R -> 0 <= c < C -> P r c (g r c)).
Proof.
  intros H.
  destruct (LoadForBroadcasting_spec R C v (pos_of (vec_shape v) row col)
     (fun r c => getv (entry_of v (row + r) (col + c))) HR HC) as (b & E & V & _).
  - intros r c Hr Hc. rewrite <- entry_of_get. destruct (H r c Hr Hc) as (x & Ex & _). rewrite Ex. reflexivity.
  - exists b, (fun r c => getv (entry_of v (row + r) (col + c))). split; [exact E|]. split; [exact V|].
    intros r c Hr Hc. destruct (H r c Hr Hc) as (x & Ex & Px). rewrite Ex. exact Px.
Qed.

Lemma stage_eval_spec s input g h : is_block input R C g ->
  (forall r c, 0 <= r < R -> 0 <= c < C -> stage_at m s (row + r) (col + c) (g r c) = Some (h r c)) ->
  exists b, stage_eval m s input row col = Some b /\ is_block b R C h.
Proof.
  intros Hin H. pose proof Hin as (E1&E2&_). unfold stage_eval. cbv zeta. rewrite E1, E2.
  destruct s as [off mult shift|sh off mult shift|mult shift off|mult e off|sh mult ex off| | | | |v|lo hi|zero amp tc];
    cbn [stage_at] in H.
  - use_map. exact H.
  - destruct (load_entry (VMap sh mult) (fun r c k => forall o, entry_of (VMap sh off) (row + r) (col + c) = Some o ->
       quantize_at m o k shift (g r c) = Some (h r c))) as (bm & gm & Em & Vm & Pm).
    { intros r c Hr Hc. specialize (H r c Hr Hc). apply bind_some in H as (o & Eo & H). apply bind_some in H as (k & Ek & H).
      exists k. split; [exact Ek|]. intros o' Eo'. congruence. }
    destruct (load_entry (VMap sh off) (fun r c o => quantize_at m o (gm r c) shift (g r c) = Some (h r c))) as (bo & go & Eo & Vo & Po).
    { intros r c Hr Hc. pose proof (H r c Hr Hc) as H'. apply bind_some in H' as (o & Eo & _).
      exists o. split; [exact Eo|]. apply Pm; assumption. }
    cbn [vec_shape] in Em, Eo. rewrite Em. cbn [bind]. rewrite Eo. cbn [bind].
    unfold BroadcastAdd, BroadcastMul.
    destruct (Broadcast_full (Add m 32) input bo R C g go (fun r c => getv (norm m 32 (g r c + go r c)))) as (ba & Ea & Va); try assumption.
    { intros r c Hr Hc. specialize (Po r c Hr Hc). unfold quantize_at in Po. apply bind_some in Po as (a & Ea & _).
      unfold Add. rewrite Ea. reflexivity. }
    rewrite Ea. cbn [bind].
    destruct (Broadcast_full (Mul m 32) ba bm R C _ gm (fun r c => getv (norm m 32 (getv (norm m 32 (g r c + go r c)) * gm r c)))
       HR HC Va Vm) as (bp & Ep & Vp).
    { intros r c Hr Hc. specialize (Po r c Hr Hc). unfold quantize_at in Po. apply bind_some in Po as (a & Ea' & Po).
      apply bind_some in Po as (p & Ep & _). unfold Mul. rewrite Ea'. cbn [getv]. rewrite Ep. reflexivity. }
    rewrite Ep. cbn [bind]. use_map. intros r c Hr Hc. specialize (Po r c Hr Hc). unfold quantize_at in Po.
    apply bind_some in Po as (a & Ea' & Po). apply bind_some in Po as (p & Ep' & Po).
    rewrite Ea'. cbn [getv]. rewrite Ep'. cbn [getv]. exact Po.
  - use_map. exact H.
  - destruct (norm m 32 (- e)) as [n|] eqn:En.
    + cbn [bind] in *. use_map. exact H.
    + exfalso. specialize (H 0 0 ltac:(lia) ltac:(lia)). discriminate.
  - set (Q := fun r c k e => exists n, norm m 32 (- e) = Some n /\
                scale_at m k (Z.max 0 e) (Z.max 0 n) off (g r c) = Some (h r c)).
    destruct (load_entry (VMap sh ex) (fun r c e => forall k, entry_of (VMap sh mult) (row + r) (col + c) = Some k -> Q r c k e))
      as (be & ge & Ee & Ve & Pe).
    { intros r c Hr Hc. specialize (H r c Hr Hc). apply bind_some in H as (k & Ek & H). apply bind_some in H as (e & Ee & H).
      apply bind_some in H as (n & En & H). exists e. split; [exact Ee|]. intros k' Ek'. exists n. split; [exact En|]. congruence. }
    destruct (load_entry (VMap sh mult) (fun r c k => Q r c k (ge r c))) as (bm & gm & Em & Vm & Pm).
    { intros r c Hr Hc. pose proof (H r c Hr Hc) as H'. apply bind_some in H' as (k & Ek & _).
      exists k. split; [exact Ek|]. apply Pe; assumption. }
    cbn [vec_shape] in Em, Ee. rewrite Ee. cbn [bind]. rewrite Em. cbn [bind].
    destruct (views_map (fun x => Some (Z.max x 0)) be R C ge (fun r c => Z.max (ge r c) 0) HR HC Ve) as (bl & El & Vl & _);
      [intros; reflexivity|].
    rewrite El. cbn [bind].
    destruct (views_map (fun x => let* n := norm m 32 (- x) in Some (Z.max n 0)) be R C ge
       (fun r c => Z.max (getv (norm m 32 (- ge r c))) 0) HR HC Ve) as (br & Er & Vr & _).
    { intros r c Hr Hc. destruct (Pm r c Hr Hc) as (n & En & _). rewrite En. reflexivity. }
    rewrite Er. cbn [bind]. unfold BroadcastShiftLeft, BroadcastSRDHM, BroadcastRDPOT.
    destruct (Broadcast_full (ShiftLeft m 32) input bl R C g _
       (fun r c => getv (ShiftLeft m 32 (g r c) (Z.max (ge r c) 0))) HR HC Hin Vl) as (bs & Es & Vs).
    { intros r c Hr Hc. destruct (Pm r c Hr Hc) as (n & En & HQ). unfold scale_at in HQ.
      apply bind_some in HQ as (s & Es & _). rewrite Z.max_comm in Es. rewrite Es. reflexivity. }
    rewrite Es. cbn [bind].
    destruct (Broadcast_full (fun x y => Some (SaturatingRoundingDoublingHighMul 32 x y)) bs bm R C _ gm
      (fun r c => SaturatingRoundingDoublingHighMul 32 (getv (ShiftLeft m 32 (g r c) (Z.max (ge r c) 0))) (gm r c)) HR HC Vs Vm)
      as (bh & Eh & Vh); [intros; reflexivity|].
    rewrite Eh. cbn [bind].
    destruct (Broadcast_full (RoundingDivideByPOT m 32) bh br R C _ _
      (fun r c => getv (RoundingDivideByPOT m 32 (SaturatingRoundingDoublingHighMul 32 (getv (ShiftLeft m 32 (g r c) (Z.max (ge r c) 0))) (gm r c))
         (Z.max (getv (norm m 32 (- ge r c))) 0))) HR HC Vh Vr) as (bq & Eq & Vq).
    { intros r c Hr Hc. destruct (Pm r c Hr Hc) as (n & En & HQ). unfold scale_at in HQ.
      apply bind_some in HQ as (s & Es' & HQ). apply bind_some in HQ as (q & Eq & _).
      rewrite Z.max_comm in Es'. rewrite Es', En. cbn [getv]. rewrite (Z.max_comm n). rewrite Eq. reflexivity. }
    rewrite Eq. cbn [bind]. use_map. intros r c Hr Hc. destruct (Pm r c Hr Hc) as (n & En & HQ). unfold scale_at in HQ.
    apply bind_some in HQ as (s & Es' & HQ). apply bind_some in HQ as (q & Eq' & HQ).
    rewrite Z.max_comm in Es'. rewrite Es', En. cbn [getv]. rewrite (Z.max_comm n). rewrite Eq'. exact HQ.
  - use_map. intros r c Hr Hc. rewrite sat3_eq by lia. apply H; assumption.
  - use_map. intros r c Hr Hc. rewrite sat3_eq by lia. apply H; assumption.
  - use_map. intros r c Hr Hc. rewrite sat3_eq by lia. apply H; assumption.
  - use_map. exact H.
  - destruct (load_entry v (fun r c b => norm m 32 (g r c + b) = Some (h r c))) as (bv & gv & Ev & Vv & Pv).
    { intros r c Hr Hc. specialize (H r c Hr Hc). apply bind_some in H as (x & Ex & H). exists x. split; assumption. }
    rewrite Ev. cbn [bind]. eapply Broadcast_full; [exact HR|exact HC|eassumption|eassumption|]. exact Pv.
  - use_map. intros r c Hr Hc. rewrite Z.min_comm, (Z.max_comm (g r c)). apply H; assumption.
  - use_map. exact H.
Qed.

Lemma pipeline_eval_spec p : forall input g h, is_block input R C g ->
  (forall r c, 0 <= r < R -> 0 <= c < C -> pipe_at m p (row + r) (col + c) (g r c) = Some (h r c)) ->
  exists b, pipeline_eval m p input row col = Some b /\ is_block b R C h.
Proof.
  induction p as [|s t IH]; intros input g h Hin H.
  - cbn in *. exists input. split; [reflexivity|]. eapply is_block_ext; [exact HR|exact HC| |exact Hin].
    intros r c Hr Hc. specialize (H r c Hr Hc). congruence.
  - cbn [pipeline_eval pipe_at] in *.
    destruct (stage_eval_spec s input g (fun r c => getv (stage_at m s (row + r) (col + c) (g r c))) Hin) as (b & E & Hb).
    { intros r c Hr Hc. specialize (H r c Hr Hc). apply bind_some in H as (y & Ey & _). rewrite Ey. reflexivity. }
    rewrite E. cbn [bind]. eapply IH; [exact Hb|]. intros r c Hr Hc. specialize (H r c Hr Hc).
    apply bind_some in H as (y & Ey & H). rewrite Ey. exact H.
Qed.

Lemma StoreFinalOutput_spec b g dst drow dcol : is_block b R C g ->
  StoreFinalOutput b dst drow dcol =
    Some (map (fun i => (mm_addr dst (drow + i / C) (dcol + i mod C), g (i / C) (i mod C))) (zrange (R * C))).
Proof.
  intros Hb. pose proof Hb as (E1&E2&_). unfold StoreFinalOutput. rewrite E1, E2. apply mapM_some.
  intros i Hi. apply zrange_In in Hi. destruct (idx_mod_div C R i HC HR ltac:(lia)) as [B1 B2].
  rewrite (is_block_reg b R C g) by assumption. reflexivity.
Qed.

Lemma Execute_spec p input g h dst drow dcol : is_block input R C g ->
  (forall r c, 0 <= r < R -> 0 <= c < C -> pipe_at m p (row + r) (col + c) (g r c) = Some (h r c)) ->
  Execute m p input dst row col drow dcol =
    Some (map (fun i => (mm_addr dst (drow + i / C) (dcol + i mod C), h (i / C) (i mod C))) (zrange (R * C))).
Proof.
  intros Hin H. unfold Execute. destruct (pipeline_eval_spec p input g h Hin H) as (b & -> & Hb). cbn [bind].
  apply StoreFinalOutput_spec. exact Hb.
Qed.
End Stage.
