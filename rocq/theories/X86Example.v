(* X86Example.v: concrete packed blocks for the kernel theorems *)
From Verif Require Import Base BaseLemmas CommonModel PackModel GemmSpec ComputeModel KernelSpec SimdModel X86Model X86Kernels X86Contract.

Definition zregs (n : nat) : list reg := map (fun i => Z.of_nat i * 12345678901234567890) (seq 1 n).
Definition fl0 : flags := mk_flags true false true.
(* operands of depth 6 (three cells, so the two-cell loop runs one cell too far) *)
Definition kxA (w d : Z) : Z := if d <? 6 then (w * 37 + d * 101 + 255) mod 256 else 0.
Definition kxB (c d : Z) : Z := if d <? 6 then (c * 91 + d * 59 + 200) mod 256 else 0.
(* width-major blocks: byte j holds level 2*(j/(2W)) + j mod 2 of row (j mod 2W)/2 *)
Definition kx_block (W rows levels : Z) (A : Z -> Z -> Z) : mem := fun a =>
  let j := a - 100 in
  if (0 <=? j) && (j <? rows * levels) then
    Some (A (j mod (2 * rows) / 2) (2 * (j / (2 * rows)) + j mod 2))
  else None.
Lemma kx_holds W C levels A : 0 < W -> 0 < C -> (2 | levels) -> (forall w d, 0 <= A w d < 256) ->
  holds_run (mk_side_fmt W 2 CWidthMajor C FUint8) (kx_block W (C * W) levels A) 100 levels A.
Proof.
  intros HW HC [l ->] HA w d Hw Hd. unfold sf_width in Hw. cbn [sf_cells sf_cw] in Hw. exists (A w d).
  split; [|split; [apply HA|reflexivity]].
  unfold kx_block, run_index, cell_off. cbn [sf_cw sf_cd sf_cells sf_order].
  set (j := 100 + _ - 100).
  assert (Ew : w = W * (w / W) + w mod W) by (apply Z.div_mod; lia). pose proof (Z.mod_pos_bound w W HW) as Bm.
  assert (0 <= w / W) by (apply Z.div_pos; lia).
  assert (Ej : j = (2 * (C * W)) * (d / 2) + (2 * w + d mod 2)).
  { unfold j. rewrite Ew at 3. set (q := w / W). set (s := w mod W). ring. }
  assert (Bd : 0 <= d mod 2 < 2) by (apply Z.mod_pos_bound; lia).
  assert (Q1 : j / (2 * (C * W)) = d / 2) by (symmetry; apply (Z.div_unique _ _ _ (2 * w + d mod 2)); [left; nia|exact Ej]).
  assert (Q2 : j mod (2 * (C * W)) = 2 * w + d mod 2) by (symmetry; apply (Z.mod_unique _ _ (d / 2)); [left; nia|exact Ej]).
  assert (Q3 : j mod 2 = d mod 2).
  { symmetry. apply (Z.mod_unique _ _ (C * W * (d / 2) + w)); [left; lia|]. rewrite Ej. ring. }
  rewrite Q1, Q2, Q3.
  assert (Hj : 0 <= j < C * W * (l * 2)).
  { rewrite Ej. pose proof (Z.div_mod d 2 ltac:(lia)). assert (0 <= d / 2 <= l - 1) by lia. nia. }
  replace ((0 <=? j) && (j <? C * W * (l * 2))) with true by lia. f_equal. f_equal; lia.
Qed.
Definition kx_dst : mem := fun a => if (0 <=? a) && (a <? 400) then Some (a * 1000 - 7) else None.
Definition kx_old (cs r c : Z) : Z := (20 + (r * 1 + c * cs)) * 1000 - 7.

Lemma kxA_byte w d : 0 <= kxA w d < 256.
Proof. unfold kxA. destruct (d <? 6); [apply Z.mod_pos_bound|]; lia. Qed.
Lemma kxB_byte w d : 0 <= kxB w d < 256.
Proof. unfold kxB. destruct (d <? 6); [apply Z.mod_pos_bound|]; lia. Qed.
Lemma kx_dst_ok rows cs r c : 0 <= rows <= cs -> cs <= 90 -> 0 <= r < rows -> 0 <= c < 4 ->
  kx_dst (20 + (r * 1 + c * cs)) = Some (kx_old cs r c).
Proof.
  intros H1 H2 Hr Hc. unfold kx_dst, kx_old. replace ((0 <=? _) && _) with true by nia. reflexivity.
Qed.
Lemma kx_inj rows cs : rows <= cs -> forall r c r' c', 0 <= r < rows -> 0 <= c < 4 -> 0 <= r' < rows -> 0 <= c' < 4 ->
  r * 1 + c * cs = r' * 1 + c' * cs -> r = r' /\ c = c'.
Proof. intros H r c r' c' Hr Hc Hr' Hc' E. assert (c = c') by nia. subst c'. lia. Qed.

(* behind the run, other values: the kernel reads them *)
Definition kxA1 (w d : Z) : Z := (w * 37 + d * 101 + 255) mod 256.
Definition kxB1 (c d : Z) : Z := (c * 91 + d * 59 + 200) mod 256.
Lemma kxA1_byte w d : 0 <= kxA1 w d < 256. Proof. apply Z.mod_pos_bound. lia. Qed.
Lemma kxB1_byte w d : 0 <= kxB1 w d < 256. Proof. apply Z.mod_pos_bound. lia. Qed.
