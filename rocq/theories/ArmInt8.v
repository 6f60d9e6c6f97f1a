(* ArmInt8.v: what the int8 kernels accumulate: pairs of products in 16 bits *)
From Verif Require Import Base BaseLemmas CommonModel PackModel GemmSpec ComputeModel KernelSpec SimdModel SimdProofs X86Model X86Proofs X86Loop
  ArmModel ArmProofs ArmLoop.

(* levels 16b+j and 16b+8+j in one signed word; the 8 words of block b *)
Definition pair16 (A B : Z -> Z -> Z) (r c b j : Z) : Z :=
  wrapS 16 (A r (16 * b + j) * B c (16 * b + j) + A r (16 * b + 8 + j) * B c (16 * b + 8 + j)).
Definition blk8 (A B : Z -> Z -> Z) (r c b : Z) : Z := sumZ (pair16 A B r c b) 0 8.

Lemma sumZ_8 f : sumZ f 0 8 = f 0 + f 1 + f 2 + f 3 + f 4 + f 5 + f 6 + f 7.
Proof. reflexivity || (cbv [sumZ sum_n Z.to_nat]; cbn; lia). Qed.
Lemma mac8 b l b' l' f g j : isb b 0 g -> isb l 0 f -> isb b' 1 (fun j => g (8 + j)) -> isb l' 1 (fun j => f (8 + j)) -> 0 <= j < 8 ->
  get 16 j (v_mlal8 (v_mull8 b 0 l 0) b' 1 l' 1) =
  wrapS 16 (wrapS 8 (f j) * wrapS 8 (g j) + wrapS 8 (f (8 + j)) * wrapS 8 (g (8 + j))).
Proof.
  intros H1 H2 H3 H4 Hj. rewrite g_mlal8, g_mull8 by lia. rewrite wrapS_add_l by lia. rewrite !(get_getU 8) by lia.
  rewrite H1, H2, H3, H4 by lia. f_equal. lia.
Qed.

Lemma wrapS_4 a b c d : wrapS 32 (wrapS 32 a + wrapS 32 b + wrapS 32 c + wrapS 32 d) = wrapS 32 (a + b + c + d).
Proof.
  rewrite wrapS_add_r by lia. replace (wrapS 32 a + wrapS 32 b + wrapS 32 c + d) with (wrapS 32 a + wrapS 32 b + d + wrapS 32 c) by lia.
  rewrite wrapS_add_r by lia. replace (wrapS 32 a + wrapS 32 b + d + c) with (wrapS 32 a + d + c + wrapS 32 b) by lia.
  rewrite wrapS_add_r by lia. replace (wrapS 32 a + d + c + b) with (d + c + b + wrapS 32 a) by lia.
  rewrite wrapS_add_r by lia. f_equal. lia.
Qed.

Section Lanes.
Variables (A B : Z -> Z -> Z) (r c : Z).
Definition lanes_at (x : reg) (n : Z) : Prop := forall i, 0 <= i < 4 ->
  get 32 i x = wrapS 32 (sumZ (fun b => pair16 A B r c b (2 * i) + pair16 A B r c b (2 * i + 1)) 0 n).
Lemma lanes_zero : lanes_at 0 0.
Proof. intros i Hi. rewrite get_0 by lia. rewrite sumZ_empty by lia. reflexivity. Qed.
Lemma lanes_next x b l b' l' f g n : 0 <= n -> lanes_at x n ->
  isb b 0 g -> isb l 0 f -> isb b' 1 (fun j => g (8 + j)) -> isb l' 1 (fun j => f (8 + j)) ->
  (forall j, 0 <= j < 16 -> wrapS 8 (f j) = A r (16 * n + j)) -> (forall j, 0 <= j < 16 -> wrapS 8 (g j) = B c (16 * n + j)) ->
  lanes_at (v_padal x (v_mlal8 (v_mull8 b 0 l 0) b' 1 l' 1)) (n + 1).
Proof.
  intros Hn Hx H1 H2 H3 H4 EA EB i Hi. rewrite g_padal by lia. rewrite !(mac8 b l b' l' f g) by (try assumption; lia).
  rewrite Hx by lia. rewrite wrapS_add_l by lia. rewrite sumZ_last by lia. unfold pair16. rewrite !EA, !EB by lia.
  rewrite !Z.add_assoc. reflexivity.
Qed.
Definition hs (x : reg) : Z := get 32 0 x + get 32 1 x + get 32 2 x + get 32 3 x.
Lemma hs_ok x n : 0 <= n -> lanes_at x n -> wrapS 32 (hs x) = wrapS 32 (sumZ (blk8 A B r c) 0 n).
Proof.
  intros Hn H. unfold hs. rewrite !H by lia. rewrite wrapS_4.
  f_equal. rewrite <- !sumZ_add. apply sumZ_ext. intros b _. unfold blk8. rewrite sumZ_8.
  change (2 * 0) with 0. change (2 * 1) with 2. change (2 * 2) with 4. change (2 * 3) with 6. cbn [Z.add Pos.add Pos.succ]. lia.
Qed.
End Lanes.

(* both pairwise additions of AArch64 *)
Lemma addp4 a0 a1 a2 a3 i x : 0 <= i < 4 ->
  x = (match i with 0 => a0 | 1 => a1 | 2 => a2 | _ => a3 end) ->
  get 32 i (v_addp (v_addp a0 a1) (v_addp a2 a3)) = wrapS 32 (hs x).
Proof.
  assert (P : forall u v j, 0 <= j < 4 -> get 32 j (v_addp u v) =
    wrapS 32 (match j with 0 => get 32 0 u + get 32 1 u | 1 => get 32 2 u + get 32 3 u | 2 => get 32 0 v + get 32 1 v | _ => get 32 2 v + get 32 3 v end)).
  { intros u v j Hj. rewrite g_addp by lia. assert (j = 0 \/ j = 1 \/ j = 2 \/ j = 3) as [-> | [-> | [-> | ->]]] by lia; reflexivity. }
  intros Hi ->. rewrite P by lia. unfold hs.
  assert (i = 0 \/ i = 1 \/ i = 2 \/ i = 3) as [-> | [-> | [-> | ->]]] by lia; cbv iota; rewrite !P by lia; cbv iota;
    rewrite wrapS_add_l, wrapS_add_r by lia; f_equal; lia.
Qed.

(* exactness, and the bound that holds in any case *)
Definition not_both_min (x y : Z) : Prop := x <> -128 \/ y <> -128.
Lemma blk8_bound A B r c b : -262144 <= blk8 A B r c b <= 262144.
Proof.
  pose proof (sumZ_bound (pair16 A B r c b) 0 8 (-32768) 32768 ltac:(lia)) as H. unfold blk8.
  assert (forall i, 0 <= i < 8 -> -32768 <= pair16 A B r c b i <= 32768) as G.
  { intros i _. unfold pair16. match goal with |- context [wrapS 16 ?x] => pose proof (wrapS_range 16 x ltac:(lia)) as R end.
    unfold int_min, int_max in R. change (2 ^ (16 - 1)) with 32768 in R. lia. }
  specialize (H G). lia.
Qed.
Lemma pair_exact x y x' y' : -128 <= x <= 127 -> -128 <= y <= 127 -> -128 <= x' <= 127 -> -128 <= y' <= 127 ->
  not_both_min x y -> not_both_min x' y' -> wrapS 16 (x * y + x' * y') = x * y + x' * y'.
Proof.
  intros Hx Hy Hx' Hy' N N'. apply wrapS_small; [lia|]. unfold int_min, int_max. change (2 ^ (16 - 1)) with 32768.
  assert (P : forall u v, -128 <= u <= 127 -> -128 <= v <= 127 -> not_both_min u v -> -16256 <= u * v <= 16256).
  { intros u v Hu Hv [Nu | Nv]; [assert (-127 <= u <= 127) by lia|assert (-127 <= v <= 127) by lia]; nia. }
  pose proof (P _ _ Hx Hy N). pose proof (P _ _ Hx' Hy' N'). lia.
Qed.
Lemma blk8_sum A B r c n : 0 <= n -> (forall d, 0 <= d < 16 * n -> -128 <= A r d <= 127 /\ -128 <= B c d <= 127 /\ not_both_min (A r d) (B c d)) ->
  sumZ (blk8 A B r c) 0 n = sumZ (fun d => A r d * B c d) 0 (16 * n).
Proof.
  intros Hn. pattern n. apply natlike_ind; [|clear n Hn; intros n Hn IH|exact Hn]; intros H.
  - rewrite !sumZ_empty by lia. reflexivity.
  - replace (Z.succ n) with (n + 1) by lia. rewrite sumZ_last by lia. rewrite IH by (intros d Hd; apply H; lia).
    replace (16 * (n + 1)) with (16 * n + 16) by lia. rewrite (sumZ_split _ 0 (16 * n) (16 * n + 16)) by lia. f_equal.
    unfold blk8. rewrite sumZ_8. unfold pair16.
    rewrite !pair_exact by (apply H; lia).
    replace (16 * n) with (0 + 16 * n) by lia. replace (0 + 16 * n + 16) with (16 + 16 * n) by lia. rewrite sumZ_shift.
    replace (sumZ (fun i => A r (i + 16 * n) * B c (i + 16 * n)) 0 16) with
      (sumZ (fun i => A r (i + 16 * n) * B c (i + 16 * n)) 0 8 + sumZ (fun i => A r (i + 16 * n) * B c (i + 16 * n)) (0 + 8) (8 + 8))
      by (symmetry; apply (sumZ_split _ 0 8 16); lia).
    rewrite sumZ_shift. rewrite !sumZ_8. cbv beta.
    assert (E : forall i, A r (i + 16 * n) * B c (i + 16 * n) = A r (0 + 16 * n + i) * B c (0 + 16 * n + i)) by (intros i; f_equal; f_equal; lia).
    rewrite !E. rewrite !Z.add_0_l, !Z.add_0_r. repeat rewrite <- (Z.add_assoc (16 * n) 8). cbn [Z.add Pos.add Pos.succ].
    replace (16 * n + 0) with (16 * n) by lia. ring.
Qed.

(* rows of 16 bytes of an int8 cell *)
Definition rowc (cw : Z) (b : mem) (p dc r : Z) (j : Z) : Z := cellW cw 16 1 FInt8 b p dc 0 (16 * r + j).
Lemma rowc_ok cw b p run A dc r j : 0 < cw -> holds_run (mk_side_fmt cw 16 CWidthMajor 1 FInt8) b p run A -> 0 <= r < cw -> 0 <= dc ->
  16 * (dc + 1) <= run -> 0 <= j < 16 -> wrapS 8 (rowc cw b p dc r j) = A r (16 * dc + j) /\ -128 <= A r (16 * dc + j) <= 127.
Proof.
  intros Hcw H Hr Hd Hrun Hj.
  pose proof (proj2 (proj2 (cellW_ok cw 16 1 FInt8 b p run A Hcw ltac:(lia) H dc 0 (16 * r + j) ltac:(lia) ltac:(lia) ltac:(lia) ltac:(lia)))) as E.
  cbn [operand_value kind_signed] in E. unfold rowc.
  replace (cw * 0 + (16 * r + j) / 16) with r in E by lia. replace (16 * dc + (16 * r + j) mod 16) with (16 * dc + j) in E by lia.
  split; [exact E|]. rewrite <- E. pose proof (wrapS_range 8 (cellW cw 16 1 FInt8 b p dc 0 (16 * r + j)) ltac:(lia)) as R.
  unfold int_min, int_max in R. change (2 ^ (8 - 1)) with 128 in R. lia.
Qed.
Lemma ldrow16 cw b p run A a dc r : holds_run (mk_side_fmt cw 16 CWidthMajor 1 FInt8) b p run A -> a = p + dc * (16 * cw) + 16 * r ->
  0 <= r < cw -> 0 <= dc -> 16 * (dc + 1) <= run ->
  load_cells b a 16 <> None /\ is16 (vec_of 16 8 (t_cells b a 16)) (rowc cw b p dc r).
Proof.
  intros H E Hr Hd Hrun. apply (ld16W cw 16 1 FInt8 b p run A a dc 0 (16 * r)); try assumption; lia.
Qed.
Lemma ldrow8 cw b p run A a dc r h : holds_run (mk_side_fmt cw 16 CWidthMajor 1 FInt8) b p run A -> a = p + dc * (16 * cw) + 16 * r + 8 * h ->
  0 <= r < cw -> 0 <= dc -> 16 * (dc + 1) <= run -> h = 0 \/ h = 1 ->
  load_cells b a 8 <> None /\ forall z x, isb (v_set8 z x h (t_cells b a 8)) h (fun j => rowc cw b p dc r (8 * h + j)).
Proof.
  intros H E Hr Hd Hrun Hh.
  destruct (ld8W cw 16 1 FInt8 b p run A a dc 0 (16 * r + 8 * h) h) as [G1 G2]; try assumption; try lia.
  split; [exact G1|]. intros z x. eapply isb_ext; [|apply G2]. intros j Hj. unfold rowc. cbv beta. f_equal. lia.
Qed.
