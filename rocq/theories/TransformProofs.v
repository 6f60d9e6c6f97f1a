(* TransformProofs.v: from the pieces of a transform kernel to whole arrays, rows
   and tasks, for any interpretation of the operations on lanes. *)
From Coq Require Import Permutation.
From Verif Require Import Base BaseLemmas OutputModel OutputProofs MetaModel TransformModel TransformKernels TransformBlocks TransformSpec.

Section Sim.
Context {V : Type} (o : ops V) (param : pname -> V) (isz osz : nat).

Definition holds (m : Z -> option V) (a : Z) (xs : list V) : Prop := forall i x, nth_error xs i = Some x -> m (a + Z.of_nat i) = Some x.
Lemma holds_cons m a x t : holds m a (x :: t) -> m a = Some x /\ holds m (a + 1) t.
Proof.
  intros H. split; [rewrite <- (H O x eq_refl); f_equal; lia|]. intros i y E. rewrite <- (H (S i) y E). f_equal. lia.
Qed.
Lemma holds_skip m : forall n a xs, holds m a xs -> holds m (a + Z.of_nat (Nat.min n (length xs))) (skipn n xs).
Proof.
  induction n as [|n IH]; intros a xs H; [cbn; now replace (a + 0) with a by lia|].
  destruct xs as [|x t]; [intros [|i] y E; discriminate E|]. apply holds_cons in H. destruct H as [_ H]. cbn [skipn length].
  replace (a + Z.of_nat (Nat.min (S n) (S (length t)))) with (a + 1 + Z.of_nat (Nat.min n (length t))) by lia. now apply IH.
Qed.
Lemma cells_holds m : forall n a xs, holds m a xs -> (n <= length xs)%nat -> cells m a n = Some (firstn n xs).
Proof.
  induction n as [|n IH]; intros a xs H L; [reflexivity|]. destruct xs as [|x t]; [cbn in L; lia|].
  apply holds_cons in H. destruct H as [E H]. cbn [cells firstn]. rewrite E. cbn [bind]. rewrite (IH (a + 1) t H) by (cbn in L; lia). reflexivity.
Qed.
Lemma log_of_app (l1 : list V) : forall a l2 log, log_of a (l1 ++ l2) log = log_of (a + Z.of_nat (length l1)) l2 (log_of a l1 log).
Proof.
  induction l1 as [|x t IH]; intros a l2 log; cbn [app log_of length].
  - now replace (a + Z.of_nat 0) with a by lia.
  - rewrite IH. f_equal. lia.
Qed.

Lemma sexec_exec input bias : forall p c xs bs c' xs' bs' outs, sexec o param isz osz p c xs bs = Some (c', xs', bs', outs) ->
  forall ip bp op log, holds input ip xs -> holds bias bp bs ->
  exec o param isz osz input bias p (mk_st c ip bp op log) =
    Some (mk_st c' (ip + Z.of_nat (length xs) - Z.of_nat (length xs')) (bp + Z.of_nat (length bs) - Z.of_nat (length bs'))
            (op + Z.of_nat (length outs)) (log_of op outs log)).
Proof.
  assert (alu_case : forall i t c xs bs c' xs' bs' outs,
    (forall c xs bs c' xs' bs' outs, sexec o param isz osz t c xs bs = Some (c', xs', bs', outs) ->
      forall ip bp op log, holds input ip xs -> holds bias bp bs ->
      exec o param isz osz input bias t (mk_st c ip bp op log) =
        Some (mk_st c' (ip + Z.of_nat (length xs) - Z.of_nat (length xs')) (bp + Z.of_nat (length bs) - Z.of_nat (length bs'))
            (op + Z.of_nat (length outs)) (log_of op outs log))) ->
    match alu o param i c with Some c => sexec o param isz osz t c xs bs | None => None end = Some (c', xs', bs', outs) ->
    forall ip bp op log, holds input ip xs -> holds bias bp bs ->
    (let* s := (let* c := alu o param i c in Some (mk_st c ip bp op log)) in exec o param isz osz input bias t s) =
        Some (mk_st c' (ip + Z.of_nat (length xs) - Z.of_nat (length xs')) (bp + Z.of_nat (length bs) - Z.of_nat (length bs'))
            (op + Z.of_nat (length outs)) (log_of op outs log))).
  { intros i t c xs bs c' xs' bs' outs IH E ip bp op log Hx Hb. destruct (alu o param i c) as [c1|]; [|discriminate E]. cbn [bind]. now apply IH. }
  induction p as [|i t IH]; intros c xs bs c' xs' bs' outs E ip bp op log Hx Hb.
  - cbn in E. injection E as <- <- <- <-. cbn [exec length log_of]. f_equal. f_equal; lia.
  - destruct i as [sh|sh|sh| | | | | | | | | | | | | | | | | | | | | ]; cbn [exec step t_cpu t_in t_bias t_out t_log]; cbn [sexec] in E;
    try (eapply alu_case; [exact IH|exact E|exact Hx|exact Hb]).
    + set (n := s_count isz sh) in *. destruct (Nat.leb_spec n (length xs)) as [L|]; [|discriminate E].
      rewrite (cells_holds _ _ _ _ Hx L). cbn [bind].
      pose proof (holds_skip _ n _ _ Hx) as Hx'. rewrite Nat.min_l in Hx' by exact L.
      rewrite (IH _ _ _ _ _ _ _ E _ _ op log Hx' Hb). rewrite skipn_length. f_equal. f_equal; lia.
    + set (n := s_count isz sh) in *. destruct (Nat.leb_spec n (length bs)) as [L|]; [|discriminate E].
      rewrite (cells_holds _ _ _ _ Hb L). cbn [bind].
      pose proof (holds_skip _ n _ _ Hb) as Hb'. rewrite Nat.min_l in Hb' by exact L.
      rewrite (IH _ _ _ _ _ _ _ E _ _ op log Hx Hb'). rewrite skipn_length. f_equal. f_equal; lia.
    + destruct (sexec o param isz osz t c xs bs) as [[[[c1 x1] b1] o1]|] eqn:Et; [|discriminate E]. injection E as <- <- <- <-.
      cbn [bind]. rewrite (IH _ _ _ _ _ _ _ Et _ _ _ _ Hx Hb). rewrite app_length, log_of_app. f_equal. f_equal. lia.
Qed.
End Sim.

(* ------------------------------------------------------------------ *)
(* lists of consecutive elements *)
Definition elems {A} (X : Z -> A) (from : Z) (n : nat) : list A := map (fun i => X (from + Z.of_nat i)) (seq 0 n).
Lemma elems_length {A} (X : Z -> A) from n : length (elems X from n) = n.
Proof. unfold elems. now rewrite map_length, seq_length. Qed.
Lemma elems_S {A} (X : Z -> A) from n : elems X from (S n) = X from :: elems X (from + 1) n.
Proof.
  unfold elems. cbn [seq map]. f_equal; [f_equal; lia|]. rewrite <- seq_shift, map_map. apply map_ext. intros i. f_equal. lia.
Qed.
Lemma elems_app {A} (X : Z -> A) : forall n from k, elems X from (n + k) = elems X from n ++ elems X (from + Z.of_nat n) k.
Proof.
  induction n as [|n IH]; intros from k; [cbn; now replace (from + 0) with from by lia|].
  cbn [Nat.add]. rewrite !elems_S, IH. cbn [app]. do 3 f_equal. lia.
Qed.
Lemma elems_nth {A} (X : Z -> A) n : forall from i x, nth_error (elems X from n) i = Some x -> (i < n)%nat /\ x = X (from + Z.of_nat i).
Proof.
  induction n as [|n IH]; intros from i x E; [destruct i; discriminate E|]. rewrite elems_S in E. destruct i as [|i]; cbn in E.
  - injection E as <-. split; [lia|f_equal; lia].
  - apply IH in E. destruct E as [L ->]. split; [lia|f_equal; lia].
Qed.
Lemma elems_ext {A} (X Y : Z -> A) n : forall from from', (forall i, 0 <= i < Z.of_nat n -> X (from + i) = Y (from' + i)) -> elems X from n = elems Y from' n.
Proof. intros from from' H. unfold elems. apply map_ext_in. intros i Hi. apply in_seq in Hi. apply H. lia. Qed.
Lemma map_combine_elems {A B} (f : A -> A -> B) (X Y : Z -> A) from from' n :
  map (fun xb => f (fst xb) (snd xb)) (combine (elems X from n) (elems Y from' n)) = elems (fun i => f (X i) (Y (i + (from' - from)))) from n.
Proof.
  revert from from'. induction n as [|n IH]; intros from from'; [reflexivity|]. rewrite !elems_S. cbn [combine map fst snd]. f_equal.
  - f_equal. f_equal. lia.
  - rewrite IH. apply elems_ext. intros i Hi. f_equal. f_equal. lia.
Qed.
Lemma elems_zrange {A} (X : Z -> A) from n : 0 <= n -> elems X from (Z.to_nat n) = map (fun i => X (from + i)) (zrange n).
Proof. intros H. unfold elems, zrange. now rewrite map_map. Qed.
Lemma rev_log_of {V} (l : list V) : forall a log, rev (log_of a l log) = rev log ++ combine (elems (fun z => z) a (length l)) l.
Proof.
  induction l as [|x t IH]; intros a log; [cbn; now rewrite app_nil_r|]. cbn [log_of length]. rewrite IH, elems_S. cbn [rev combine].
  now rewrite <- app_assoc.
Qed.

(* ------------------------------------------------------------------ *)
Lemma combine_map_same {A B C} (g : A -> B) (h : A -> C) l : combine (map g l) (map h l) = map (fun x => (g x, h x)) l.
Proof. induction l as [|x t IH]; [reflexivity|]. cbn. now rewrite IH. Qed.

Section Kernel.
Context {V : Type} (o : ops V) (param : pname -> V) (k : tkernel) (f : V -> V -> V) (ready : cpu (V := V) -> Prop).
Hypothesis HK : pieces_ok o param k f ready.
Context (input bias : Z -> option V) (X B : Z -> V).
Local Notation isz := (tk_isz k).
Local Notation osz := (tk_osz k).
(* the values stored for elements i, i+1, ... of the input, with elements b, b+1, ... of the bias *)
Definition outs_of (i b : Z) (n : nat) : list V := elems (fun j => f (X j) (if tk_rows k then B (j + (b - i)) else X j)) i n.
Lemma outs_length i b n : length (outs_of i b n) = n.
Proof. apply elems_length. Qed.
Lemma outs_app i b n m : outs_of i b (n + m) = outs_of i b n ++ outs_of (i + Z.of_nat n) (b + Z.of_nat n) m.
Proof.
  unfold outs_of. rewrite elems_app. f_equal. apply elems_ext. intros j Hj. f_equal. destruct (tk_rows k); f_equal. lia.
Qed.
Definition there (m : Z -> option V) (Y : Z -> V) (i : Z) (n : nat) : Prop := forall j, i <= j < i + Z.of_nat n -> m j = Some (Y j).
Lemma there_holds m Y i n : there m Y i n -> holds m i (elems Y i n).
Proof. intros H j y E. apply elems_nth in E. destruct E as [L ->]. apply H. lia. Qed.
Definition bias_there (b : Z) (n : nat) : Prop := tk_rows k = true -> there bias B b n.
(* the bias pointer only moves in kernels with rows *)
Definition bias_moved (b : Z) (n : nat) : Z := if tk_rows k then b + Z.of_nat n else b.

Definition blist b n := if tk_rows k then elems B b n else [].
Lemma blist_length b n : length (blist b n) = if tk_rows k then n else 0%nat.
Proof. unfold blist. destruct (tk_rows k); [apply elems_length|reflexivity]. Qed.
Lemma blist_holds b n : bias_there b n -> holds bias b (blist b n).
Proof. unfold bias_there, blist. destruct (tk_rows k); intros H; [apply there_holds; auto|intros [|i] y E; discriminate E]. Qed.
Lemma values i b n : map (fun xb => f (fst xb) (snd xb)) (combine (elems X i n) (if tk_rows k then blist b n else elems X i n)) = outs_of i b n.
Proof.
  unfold outs_of, blist. destruct (tk_rows k); rewrite map_combine_elems; apply elems_ext; intros j Hj; f_equal; f_equal; lia.
Qed.
Lemma piece_run p c c' i b n op log :
  sexec o param isz osz p c (elems X i n) (blist b n) = Some (c', [], [], outs_of i b n) ->
  there input X i n -> bias_there b n ->
  exec o param isz osz input bias p (mk_st c i b op log) = Some (mk_st c' (i + Z.of_nat n) (bias_moved b n) (op + Z.of_nat n) (log_of op (outs_of i b n) log)).
Proof.
  intros E Hi Hb. rewrite (sexec_exec o param isz osz input bias p _ _ _ _ _ _ _ E i b op log (there_holds _ _ _ _ Hi) (blist_holds _ _ Hb)).
  rewrite elems_length, blist_length. rewrite outs_length. cbn [length]. unfold bias_moved. f_equal. f_equal; destruct (tk_rows k); lia.
Qed.
Lemma body_run c i b op log : ready c -> there input X i 16 -> bias_there b 16 ->
  exists c', exec o param isz osz input bias (tk_body k) (mk_st c i b op log) = Some (mk_st c' (i + 16) (bias_moved b 16) (op + 16) (log_of op (outs_of i b 16) log)) /\ ready c'.
Proof.
  intros Hr Hi Hb. destruct (po_body _ _ _ _ _ HK c (elems X i 16) (blist b 16) Hr (elems_length _ _ _) (blist_length _ _)) as (c' & E & Hc).
  rewrite values in E. exists c'. split; [|exact Hc]. now apply (piece_run _ _ _ _ _ 16%nat).
Qed.
Lemma post_run l c i b op log : 0 < l < 16 -> ready c -> there input X i (Z.to_nat l) -> bias_there b (Z.to_nat l) ->
  exists c', exec o param isz osz input bias (tk_post k l) (mk_st c i b op log) =
    Some (mk_st c' (i + l) (bias_moved b (Z.to_nat l)) (op + l) (log_of op (outs_of i b (Z.to_nat l)) log)) /\ ready c'.
Proof.
  intros Hl Hr Hi Hb. destruct (po_post _ _ _ _ _ HK l c (elems X i (Z.to_nat l)) (blist b (Z.to_nat l)) Hl Hr (elems_length _ _ _) (blist_length _ _)) as (c' & E & Hc).
  rewrite values in E. exists c'. split; [|exact Hc]. rewrite (piece_run _ _ _ _ _ (Z.to_nat l) op log E Hi Hb). f_equal. f_equal; lia.
Qed.
Lemma loop_run n : forall fuel c i b op log, (n < fuel)%nat -> ready c -> there input X i (16 * S n) -> bias_there b (16 * S n) ->
  exists c', loop16 o param isz osz fuel input bias (tk_body k) (16 * Z.of_nat (S n)) (mk_st c i b op log) =
    Some (mk_st c' (i + 16 * Z.of_nat (S n)) (bias_moved b (16 * S n)) (op + 16 * Z.of_nat (S n)) (log_of op (outs_of i b (16 * S n)) log)) /\ ready c'.
Proof.
  induction n as [|n IH]; intros fuel c i b op log Hf Hr Hi Hb; (destruct fuel as [|fuel]; [lia|]); cbn [loop16].
  - destruct (body_run c i b op log Hr) as (c' & E & Hc); [intros j Hj; apply Hi; lia|intros Hk j Hj; apply (Hb Hk); lia|].
    rewrite E. cbn [bind]. exists c'. split; [|exact Hc]. replace (16 * Z.of_nat 1 - 16 =? 0) with true by lia. reflexivity.
  - destruct (body_run c i b op log Hr) as (c' & E & Hc); [intros j Hj; apply Hi; lia|intros Hk j Hj; apply (Hb Hk); lia|].
    rewrite E. cbn [bind]. replace (16 * Z.of_nat (S (S n)) - 16 =? 0) with false by lia.
    replace (16 * Z.of_nat (S (S n)) - 16) with (16 * Z.of_nat (S n)) by lia.
    destruct (IH fuel c' (i + 16) (bias_moved b 16) (op + 16) (log_of op (outs_of i b 16) log)) as (c2 & E2 & Hc2); [lia|exact Hc| | |].
    { intros j Hj. apply Hi. lia. }
    { intros Hk j Hj. unfold bias_moved in Hj. rewrite Hk in Hj. apply (Hb Hk). lia. }
    rewrite E2. exists c2. split; [|exact Hc2].
    replace (16 * S (S n))%nat with (16 + 16 * S n)%nat by lia. rewrite outs_app, log_of_app. rewrite outs_length.
    replace (outs_of (i + 16) (bias_moved b 16) (16 * S n)) with (outs_of (i + Z.of_nat 16) (b + Z.of_nat 16) (16 * S n)).
    2: { unfold outs_of, bias_moved. apply elems_ext. intros j Hj. f_equal. destruct (tk_rows k); f_equal. }
    f_equal. f_equal; try lia. unfold bias_moved. destruct (tk_rows k); lia.
Qed.
(* the loop, and what is left over *)
Lemma row_run fuel c i b op log count : (Z.to_nat count <= fuel)%nat -> 0 < count -> ready c ->
  there input X i (Z.to_nat count) -> bias_there b (Z.to_nat count) ->
  exists c' b', one_row o param isz osz fuel input bias (tk_body k) (tk_post k (count mod 16)) (count mod 16) count (mk_st c i b op log) =
    Some (mk_st c' (i + count) b' (op + count) (log_of op (outs_of i b (Z.to_nat count)) log)) /\ ready c'.
Proof.
  intros Hf Hc Hr Hi Hb. unfold one_row. set (l := count mod 16). assert (Hl : 0 <= l < 16) by (subst l; lia).
  destruct (Z.eq_dec (count / 16) 0) as [Q0|Q0].
  - (* only leftovers *)
    assert (Ec : count = l) by (subst l; lia). replace (l =? 0) with false by lia. replace (count - l =? 0) with true by lia. cbn [bind].
    rewrite Ec in *. destruct (post_run l c i b op log ltac:(lia) Hr Hi Hb) as (c' & E & H). exists c', (bias_moved b (Z.to_nat l)). auto.
  - remember (Z.to_nat (count / 16 - 1)) as n eqn:En. assert (En' : 16 * Z.of_nat (S n) = count - l) by (subst n l; lia).
    destruct (loop_run n fuel c i b op log) as (c1 & E1 & H1); [lia|exact Hr|intros j Hj; apply Hi; lia|intros Hk j Hj; apply (Hb Hk); lia|].
    rewrite En' in E1. destruct (Z.eqb_spec l 0) as [L0|L0].
    + rewrite L0, Z.sub_0_r in E1. exists c1. eexists. split; [|exact H1]. rewrite E1. f_equal. f_equal. f_equal. f_equal. lia.
    + replace (count - l =? 0) with false by lia. rewrite E1. cbn [bind].
      destruct (post_run l c1 (i + (count - l)) (bias_moved b (16 * S n)) (op + (count - l)) (log_of op (outs_of i b (16 * S n)) log)) as (c2 & E2 & H2);
        [lia|exact H1|intros j Hj; apply Hi; lia| |].
      { intros Hk j Hj. unfold bias_moved in Hj. rewrite Hk in Hj. apply (Hb Hk). lia. }
      rewrite E2. exists c2. eexists. split; [|exact H2].
      replace (Z.to_nat count) with (16 * S n + Z.to_nat l)%nat by lia. rewrite outs_app, log_of_app. rewrite outs_length.
      replace (outs_of (i + (count - l)) (bias_moved b (16 * S n)) (Z.to_nat l)) with (outs_of (i + Z.of_nat (16 * S n)) (b + Z.of_nat (16 * S n)) (Z.to_nat l)).
      2: { unfold outs_of, bias_moved. apply elems_ext. intros j Hj. replace (i + Z.of_nat (16 * S n)) with (i + (count - l)) by lia. f_equal. destruct (tk_rows k); f_equal; lia. }
      f_equal. f_equal; [lia|lia|]. f_equal. lia.
Qed.
Lemma rows_run n : forall fuel inner c i b0 bp op log count, (n < fuel)%nat -> (Z.to_nat count <= inner)%nat -> 0 < count -> ready c ->
  there input X i (S n * Z.to_nat count) -> bias_there bp (Z.to_nat count) ->
  exists c' b', rows_loop o param isz osz fuel inner input bias bp (tk_body k) (tk_post k (count mod 16)) (count mod 16) count (Z.of_nat (S n)) (mk_st c i b0 op log) =
    Some (mk_st c' (i + Z.of_nat (S n) * count) b' (op + Z.of_nat (S n) * count)
      (log_of op (concat (map (fun r => outs_of (i + Z.of_nat r * count) bp (Z.to_nat count)) (seq 0 (S n)))) log)) /\ ready c'.
Proof.
  induction n as [|n IH]; intros fuel inner c i b0 bp op log count Hf Hn Hc Hr Hi Hb; (destruct fuel as [|fuel]; [lia|]); cbn [rows_loop t_cpu t_in t_out t_log].
  - destruct (row_run inner c i bp op log count Hn Hc Hr) as (c1 & b1 & E1 & H1); [intros j Hj; apply Hi; lia|exact Hb|].
    rewrite E1. cbn [bind]. exists c1, b1. split; [|exact H1]. change (Z.of_nat 1 - 1 =? 0) with true. cbn [seq map concat].
    rewrite app_nil_r. replace (i + Z.of_nat 0 * count) with i by lia. f_equal. f_equal; lia.
  - destruct (row_run inner c i bp op log count Hn Hc Hr) as (c1 & b1 & E1 & H1); [intros j Hj; apply Hi; lia|exact Hb|].
    rewrite E1. cbn [bind]. replace (Z.of_nat (S (S n)) - 1 =? 0) with false by lia. replace (Z.of_nat (S (S n)) - 1) with (Z.of_nat (S n)) by lia.
    destruct (IH fuel inner c1 (i + count) b1 bp (op + count) (log_of op (outs_of i bp (Z.to_nat count)) log) count) as (c2 & b2 & E2 & H2);
      [lia|exact Hn|exact Hc|exact H1|intros j Hj; apply Hi; lia|exact Hb|].
    rewrite E2. exists c2, b2. split; [|exact H2]. change (seq 0 (S (S n))) with (0%nat :: seq 1 (S n)). cbn [map concat].
    rewrite log_of_app. rewrite outs_length. replace (i + Z.of_nat 0 * count) with i by lia.
    f_equal. f_equal; [lia|lia|]. rewrite <- seq_shift, map_map.
    replace (op + Z.of_nat (Z.to_nat count)) with (op + count) by lia. f_equal. f_equal. apply map_ext. intros r. f_equal. lia.
Qed.
(* count 0 or less: the loop never ends *)
Lemma loop_diverges fuel : forall count s, count <= 0 -> loop16 o param isz osz fuel input bias (tk_body k) count s = None.
Proof.
  induction fuel as [|fuel IH]; intros count s H; [reflexivity|]. cbn [loop16]. destruct (exec _ _ _ _ _ _ _ s) as [s'|]; [|reflexivity].
  cbn [bind]. replace (count - 16 =? 0) with false by lia. apply IH. lia.
Qed.

Lemma dispatch_rem count : 0 <= count -> Dispatch1D 15 (Z.rem count 16) = Some (count mod 16).
Proof.
  intros H. rewrite Z.rem_mod_nonneg by lia. assert (R : 0 <= count mod 16 < 16) by lia. generalize dependent (count mod 16). clear.
  intros l R. assert (C : In l (zrange 16)) by (apply zrange_In; lia). vm_compute in C.
  repeat (destruct C as [<-|C]; [reflexivity|]). contradiction.
Qed.
Lemma dispatch_neg count : Z.rem count 16 < 0 -> Dispatch1D 15 (Z.rem count 16) = None.
Proof.
  generalize (Z.rem count 16). intros l H. cbn [Dispatch1D].
  repeat match goal with |- context [l =? ?n] => replace (l =? n) with false by lia end. reflexivity.
Qed.

Lemma seq_from a n : seq a n = map (fun i => (a + i)%nat) (seq 0 n).
Proof.
  revert a. induction n as [|n IH]; intros a; [reflexivity|]. cbn [seq map]. rewrite (IH (S a)), (IH 1%nat), map_map. f_equal; [lia|]. apply map_ext. intros i. lia.
Qed.
(* one transform: element i of the output from element i of the input *)
Lemma logged (vs : nat -> V) op : forall n, combine (elems (fun z => z) op n) (map vs (seq 0 n)) = map (fun i => (op + Z.of_nat i, vs i)) (seq 0 n).
Proof.
  intros n. unfold elems. rewrite combine_map_same. reflexivity.
Qed.
Theorem Transform1D_flat fuel junk count rows ip bp op : tk_rows k = false -> length (c_v junk) = 32%nat -> 0 < count -> (Z.to_nat count <= fuel)%nat ->
  there input X ip (Z.to_nat count) ->
  Transform1D o param k fuel junk count rows input ip bias bp op = Some (map (fun i => (op + i, f (X (ip + i)) (X (ip + i)))) (zrange count)).
Proof.
  intros Hk Hj Hc Hf Hi. unfold Transform1D. rewrite dispatch_rem by lia. cbn [bind]. unfold TransformKernel.
  destruct (po_pre _ _ _ _ _ HK junk Hj) as (c0 & E0 & H0).
  rewrite (sexec_exec o param isz osz input bias _ _ _ _ _ _ _ _ E0 ip bp op []) by (intros [|i] y E; discriminate E).
  cbn [length log_of bind]. rewrite Hk.
  replace (ip + Z.of_nat 0 - Z.of_nat 0) with ip by lia. replace (bp + Z.of_nat 0 - Z.of_nat 0) with bp by lia. replace (op + Z.of_nat 0) with op by lia.
  destruct (row_run fuel c0 ip bp op [] count Hf Hc H0 Hi) as (c1 & b1 & E1 & _); [intros Hk'; rewrite Hk in Hk'; discriminate Hk'|].
  rewrite E1. cbn [bind t_log]. rewrite rev_log_of. cbn [rev app]. rewrite outs_length. unfold outs_of, elems at 2. rewrite logged, Hk.
  unfold zrange. now rewrite map_map.
Qed.
(* rows: the bias starts again with each row *)
Lemma rows_flat count ip bp : 0 < count -> tk_rows k = true -> forall n,
  concat (map (fun r => outs_of (ip + Z.of_nat r * count) bp (Z.to_nat count)) (seq 0 n)) =
  map (fun i => f (X (ip + Z.of_nat i)) (B (bp + Z.of_nat i mod count))) (seq 0 (n * Z.to_nat count)).
Proof.
  intros Hc Hk. induction n as [|n IH]; [reflexivity|].
  rewrite seq_S, map_app, concat_app, IH. cbn [Nat.add map concat]. rewrite app_nil_r.
  replace (S n * Z.to_nat count)%nat with (n * Z.to_nat count + Z.to_nat count)%nat by lia. rewrite seq_app, map_app. f_equal. cbn [Nat.add].
  unfold outs_of, elems. rewrite Hk, (seq_from (n * Z.to_nat count)), map_map. apply map_ext_in. intros i Hi. apply in_seq in Hi.
  f_equal; [f_equal; lia|]. f_equal.
  replace (Z.of_nat (n * Z.to_nat count + i)) with (Z.of_nat i + Z.of_nat n * count) by lia. rewrite Z.mod_add by lia. rewrite Z.mod_small by lia. lia.
Qed.
Theorem Transform1D_rows fuel junk count rows ip bp op : tk_rows k = true -> length (c_v junk) = 32%nat -> 0 < count -> 0 < rows ->
  (Z.to_nat count <= fuel)%nat -> (Z.to_nat rows <= fuel)%nat ->
  there input X ip (Z.to_nat (rows * count)) -> there bias B bp (Z.to_nat count) ->
  Transform1D o param k fuel junk count rows input ip bias bp op =
    Some (map (fun i => (op + i, f (X (ip + i)) (B (bp + i mod count)))) (zrange (rows * count))).
Proof.
  intros Hk Hj Hc Hr Hf Hf' Hi Hb. unfold Transform1D. rewrite dispatch_rem by lia. cbn [bind]. unfold TransformKernel.
  destruct (po_pre _ _ _ _ _ HK junk Hj) as (c0 & E0 & H0).
  rewrite (sexec_exec o param isz osz input bias _ _ _ _ _ _ _ _ E0 ip bp op []) by (intros [|i] y E; discriminate E).
  cbn [length log_of bind]. rewrite Hk.
  replace (ip + Z.of_nat 0 - Z.of_nat 0) with ip by lia. replace (bp + Z.of_nat 0 - Z.of_nat 0) with bp by lia. replace (op + Z.of_nat 0) with op by lia.
  remember (Z.to_nat (rows - 1)) as n eqn:En.
  destruct (rows_run n fuel fuel c0 ip bp bp op [] count) as (c1 & b1 & E1 & _); [lia|exact Hf|exact Hc|exact H0| |intros _; exact Hb|].
  { intros j Hj'. apply Hi. rewrite Z2Nat.id by nia. subst n. nia. }
  replace (Z.of_nat (S n)) with rows in E1 by lia. rewrite E1. cbn [bind t_log]. rewrite rev_log_of. cbn [rev app].
  rewrite (rows_flat count ip bp Hc Hk). rewrite map_length, seq_length. rewrite logged.
  unfold zrange. rewrite map_map. replace (Z.to_nat (rows * count)) with (S n * Z.to_nat count)%nat; [reflexivity|].
  rewrite Z2Nat.inj_mul by lia. f_equal. lia.
Qed.
(* no elements, or fewer: never a result *)
Theorem Transform1D_nonpositive fuel junk count rows ip bp op : count <= 0 -> Transform1D o param k fuel junk count rows input ip bias bp op = None.
Proof.
  intros Hc. unfold Transform1D. destruct (Z.eq_dec (Z.rem count 16) 0) as [R|R].
  - rewrite R. cbn [Dispatch1D Z.eqb Z.of_nat Pos.of_succ_nat Pos.succ Pos.eqb bind]. unfold TransformKernel.
    destruct (exec _ _ _ _ _ _ _ _) as [s|]; [|reflexivity]. cbn [bind].
    assert (N : forall s, one_row o param isz osz fuel input bias (tk_body k) (tk_post k 0) 0 count s = None) by (intros s'; unfold one_row; cbn [Z.eqb]; now apply loop_diverges).
    destruct (tk_rows k); [|now rewrite N]. destruct fuel as [|fuel]; [reflexivity|]. cbn [rows_loop]. rewrite N. reflexivity.
  - rewrite dispatch_neg; [reflexivity|]. pose proof (Z.rem_nonpos count 16 ltac:(lia) Hc). lia.
Qed.
Theorem Transform1D_no_rows fuel junk count rows ip bp op : tk_rows k = true -> rows <= 0 -> Transform1D o param k fuel junk count rows input ip bias bp op = None.
Proof.
  intros Hk Hr. unfold Transform1D. destruct (Dispatch1D 15 (Z.rem count 16)) as [l|]; [|reflexivity]. cbn [bind]. unfold TransformKernel.
  destruct (exec _ _ _ _ _ _ _ _) as [s|]; [|reflexivity]. cbn [bind]. rewrite Hk.
  assert (N : forall inner fuel rows s, rows <= 0 -> rows_loop o param isz osz fuel inner input bias bp (tk_body k) (tk_post k l) l count rows s = None).
  { clear. intros inner. induction fuel as [|fuel IH]; intros rows s H; [reflexivity|]. cbn [rows_loop]. destruct (one_row _ _ _ _ _ _ _ _ _ _ _ _) as [s'|]; [|reflexivity].
    cbn [bind]. replace (rows - 1 =? 0) with false by lia. apply IH. lia. }
  now rewrite N.
Qed.
End Kernel.

(* ------------------------------------------------------------------ *)
(* Tasks *)
Definition consecutive (tasks : list (Z * Z)) (from to : Z) : Prop :=
  fold_right (fun t next => fun at_ => fst t = at_ /\ 0 < snd t /\ next (at_ + snd t)) (fun at_ => at_ = to) tasks from.
Lemma consecutive_chunks chunk : 0 < chunk -> forall n from to last, consecutive [last] (from + Z.of_nat n * chunk) to ->
  consecutive (map (fun i => (from + Z.of_nat i * chunk, chunk)) (seq 0 n) ++ [last]) from to.
Proof.
  intros Hc. induction n as [|n IH]; intros from to last H.
  - cbn [seq map app]. now replace (from + Z.of_nat 0 * chunk) with from in H by lia.
  - cbn [seq map app]. split; [cbn; lia|]. split; [exact Hc|]. cbn [snd]. rewrite <- seq_shift, map_map.
    rewrite (map_ext _ (fun i => (from + chunk + Z.of_nat i * chunk, chunk))) by (intros i; f_equal; lia).
    apply IH. now replace (from + chunk + Z.of_nat n * chunk) with (from + Z.of_nat (S n) * chunk) by lia.
Qed.
Lemma prepare_tasks mode max_threads cost count : 0 < count -> 0 < cost <= 12 -> count * cost <= 2147483647 ->
  exists tasks, PrepareTransform1DTasks mode max_threads cost count = Some tasks /\ Z.of_nat (length tasks) <= Z.max 0 max_threads /\
    (tasks <> [] -> consecutive tasks 0 count).
Proof.
  intros Hc Hk Ho. unfold PrepareTransform1DTasks, kTransformTaskOverhead, kMinTransformTaskSize.
  assert (N : forall z, - 2147483648 <= z <= 2147483647 -> norm mode 32 z = Some z) by (intros z Hz; apply norm_fits; [lia|exact Hz]).
  rewrite N by nia. cbn [bind]. rewrite N by nia. cbn [bind].
  set (q := Z.quot (count * cost - 128000) 32000). assert (Hq : q * 32000 <= Z.max 0 (count * cost - 128000)).
  { subst q. destruct (Z.le_gt_cases 0 (count * cost - 128000)) as [H|H].
    - pose proof (Z.mul_quot_le (count * cost - 128000) 32000 H ltac:(lia)). lia.
    - pose proof (Z.quot_pos (- (count * cost - 128000)) 32000 ltac:(lia) ltac:(lia)) as P. rewrite Z.quot_opp_l in P by lia. lia. }
  set (real := Z.max 1 (Z.min max_threads q)). destruct (Z.eqb_spec real 1) as [E|E].
  - eexists. split; [reflexivity|]. split; [cbn; lia|]. intros H. contradiction.
  - eexists. split; [reflexivity|].
    (* real * 32000 <= count * cost - 128000 and cost is far below 32000 *)
    assert (R : 2 <= real /\ real <= max_threads /\ real <= q) by (subst real; lia). clearbody real q.
    rewrite app_length, map_length, seq_length. cbn [length]. split; [lia|]. intros _.
    assert (Hle : real <= count) by nia.
    pose proof (Z.mul_quot_le count real ltac:(lia) ltac:(lia)). pose proof (Z.quot_le_lower_bound count real 1 ltac:(lia) ltac:(lia)).
    set (chunk := Z.quot count real) in *. clearbody chunk.
    apply (consecutive_chunks chunk ltac:(lia) (Z.to_nat (real - 1)) 0). cbn. nia.
Qed.

Lemma mapM_Some {A B} (g : A -> option B) (h : A -> B) l : (forall x, In x l -> g x = Some (h x)) -> mapM g l = Some (map h l).
Proof.
  induction l as [|x t IH]; intros H; [reflexivity|]. cbn. rewrite (H x) by now left. cbn [bind]. rewrite IH by (intros y Hy; apply H; now right). reflexivity.
Qed.
Lemma consecutive_in : forall tasks from to, consecutive tasks from to -> from <= to /\ forall t, In t tasks -> from <= fst t /\ 0 < snd t /\ fst t + snd t <= to.
Proof.
  induction tasks as [|t r IH]; intros from to H; [cbn in H; split; [lia|contradiction]|]. destruct H as (E & P & H).
  change (consecutive r (from + snd t) to) in H. apply IH in H. destruct H as (L & H). split; [lia|]. intros u [<-|Hu]; [lia|]. specialize (H u Hu). lia.
Qed.
Lemma zrange_split n m : 0 <= n -> 0 <= m -> zrange (n + m) = zrange n ++ map (fun i => n + i) (zrange m).
Proof.
  intros Hn Hm. unfold zrange. rewrite Z2Nat.inj_add, seq_app, map_app by lia. f_equal. cbn [Nat.add]. rewrite (seq_from (Z.to_nat n)), !map_map.
  apply map_ext. intros i. lia.
Qed.
Lemma consecutive_concat {B} (g : Z -> B) : forall tasks from to, consecutive tasks from to ->
  concat (map (fun t => map (fun i => g (fst t + i)) (zrange (snd t))) tasks) = map (fun i => g (from + i)) (zrange (to - from)).
Proof.
  induction tasks as [|t r IH]; intros from to H; [cbn in H; subst; now rewrite Z.sub_diag|]. pose proof (consecutive_in _ _ _ H) as (L & _).
  destruct H as (E & P & H). change (consecutive r (from + snd t) to) in H. pose proof (consecutive_in _ _ _ H) as (L' & _).
  cbn [map concat]. rewrite (IH _ _ H), E. replace (to - from) with (snd t + (to - (from + snd t))) by lia.
  rewrite zrange_split, map_app, map_map by lia. f_equal. apply map_ext. intros i. f_equal. lia.
Qed.
Lemma map_combine_snd {A B} (g : A -> B) : forall l a, map (fun nt : nat * A => g (snd nt)) (combine (seq a (length l)) l) = map g l.
Proof. induction l as [|x t IH]; intros a; [reflexivity|]. cbn. now rewrite IH. Qed.

(* stores to distinct addresses in any order *)
Lemma write_all_cons {V} av (t : list (Z * V)) m : write_all (av :: t) m = write_all t (fun a => if a =? fst av then Some (snd av) else m a).
Proof. reflexivity. Qed.
Lemma write_all_out {V} (log : list (Z * V)) : forall m a, ~ In a (map fst log) -> write_all log m a = m a.
Proof.
  induction log as [|[b v] t IH]; intros m a H; [reflexivity|]. cbn [map fst In] in H. rewrite write_all_cons, IH by tauto. cbn [fst snd]. now replace (a =? b) with false by lia.
Qed.
Lemma write_all_in {V} (log : list (Z * V)) : forall m a v, NoDup (map fst log) -> In (a, v) log -> write_all log m a = Some v.
Proof.
  induction log as [|[b w] t IH]; intros m a v N H; [contradiction|]. cbn in N. inversion N as [|? ? N1 N2]; subst. destruct H as [E|H].
  - injection E as -> ->. rewrite write_all_cons, write_all_out by exact N1. cbn. now rewrite Z.eqb_refl.
  - rewrite write_all_cons. now apply IH.
Qed.
Lemma zrange_NoDup n : NoDup (zrange n).
Proof. unfold zrange. apply FinFun.Injective_map_NoDup; [intros a b; lia|apply seq_NoDup]. Qed.
Theorem write_all_any_order {V} (G : Z -> V) op count order m : Permutation order (map (fun i => (op + i, G i)) (zrange count)) ->
  forall a, write_all order m a = if (op <=? a) && (a <? op + count) then Some (G (a - op)) else m a.
Proof.
  intros P a. pose proof (Permutation_map fst P) as Pf. rewrite map_map in Pf. cbn [fst] in Pf.
  destruct ((op <=? a) && (a <? op + count)) eqn:E.
  - apply write_all_in.
    + eapply Permutation_NoDup; [symmetry; exact Pf|]. apply FinFun.Injective_map_NoDup; [intros x y; lia|apply zrange_NoDup].
    + eapply Permutation_in; [symmetry; exact P|]. apply in_map_iff. exists (a - op). split; [f_equal; lia|apply zrange_In; lia].
  - apply write_all_out. intros H. eapply Permutation_in in H; [|exact Pf]. apply in_map_iff in H. destruct H as (i & <- & Hi). apply zrange_In in Hi. lia.
Qed.

Section Tasks.
Context {V : Type} (o : ops V) (param : pname -> V) (k : tkernel) (f : V -> V -> V) (ready : cpu (V := V) -> Prop).
Hypothesis HK : pieces_ok o param k f ready.
Theorem MultiThread_run mode fuel junk hw max_num_threads cost count input X ip op : tk_rows k = false ->
  (forall n, length (c_v (junk n)) = 32%nat) -> 0 < count -> 0 < cost <= 12 -> count * cost <= 2147483647 -> (Z.to_nat count <= fuel)%nat ->
  (forall j, ip <= j < ip + count -> input j = Some (X j)) ->
  exists logs, MultiThreadTransform1D o param mode k fuel junk hw max_num_threads cost count input ip op = Some logs /\
    1 <= Z.of_nat (length logs) <= Z.max 1 (ResolveMaxThreads hw max_num_threads) /\
    concat logs = map (fun i => (op + i, f (X (ip + i)) (X (ip + i)))) (zrange count).
Proof.
  intros Hk Hj Hc Hcost Ho Hf Hi. unfold MultiThreadTransform1D.
  destruct (prepare_tasks mode (ResolveMaxThreads hw max_num_threads) cost count Hc Hcost Ho) as (tasks & E & L & H). rewrite E. cbn [bind].
  destruct tasks as [|t0 r].
  - rewrite (Transform1D_flat o param k f ready HK input _ X) by (try assumption; try apply Hj; intros j Hj'; apply Hi; lia). cbn [bind].
    eexists. split; [reflexivity|]. cbn [length concat]. split; [lia|]. now rewrite app_nil_r.
  - specialize (H ltac:(discriminate)). pose proof (consecutive_in _ _ _ H) as (_ & Hin). remember (t0 :: r) as tasks eqn:Et.
    rewrite (mapM_Some _ (fun nt : nat * (Z * Z) => map (fun i => (op + (fst (snd nt) + i), f (X (ip + (fst (snd nt) + i))) (X (ip + (fst (snd nt) + i))))) (zrange (snd (snd nt))))).
    2: { intros [n [offset cnt]] Hn. apply in_combine_r in Hn. apply Hin in Hn. cbn [fst snd] in *.
         rewrite (Transform1D_flat o param k f ready HK input _ X) by (try assumption; try apply Hj; try lia; intros j Hj'; apply Hi; lia).
         f_equal. apply map_ext. intros i. rewrite <- !Z.add_assoc. reflexivity. }
    eexists. split; [reflexivity|]. split.
    + rewrite map_length, combine_length, seq_length, Nat.min_id. rewrite Et in *. cbn [length] in *. lia.
    + rewrite (map_combine_snd (fun t => map (fun i => (op + (fst t + i), f (X (ip + (fst t + i))) (X (ip + (fst t + i))))) (zrange (snd t)))).
      rewrite (consecutive_concat (fun i => (op + i, f (X (ip + i)) (X (ip + i)))) _ _ _ H). rewrite Z.sub_0_r. reflexivity.
Qed.
End Tasks.
