(* X86Contract.v: the x86 kernels meet the kernel contract *)
From Verif Require Import Base BaseLemmas CommonModel CommonProofs PackModel PackSimdModel GemmSpec ComputeModel KernelSpec KernelProofs
  SimdModel SimdProofs X86Model X86Kernels X86Proofs X86Loop X86Blocks.

(* ------------------------------------------------------------------ *)
(* from the blocks to the whole program *)
Section Whole.
Variables (n : nat) (C : Z) (lhs rhs : mem) (lp0 rp0 P : Z) (A B : Z -> Z -> Z).
Notation N := (Z.of_nat n).
Hypothesis Hn : 1 <= N.
Hypothesis HC : 1 <= C.
Hypothesis HL : forall w d, 0 <= w < C * N -> 0 <= d < P ->
  lhs (lp0 + ((d / 2 * C + w / N) * (N * 2) + (d mod 2 + w mod N * 2))) = Some (A w d) /\ 0 <= A w d < 256.
Hypothesis HR : forall c d, 0 <= c < 4 -> 0 <= d < P ->
  rhs (rp0 + (d / 2 * 8 + (d mod 2 + c * 2))) = Some (B c d) /\ 0 <= B c d < 256.
Variables (prog : list xop) (pc1 pc2 pcA pcF k0 k1 k2 kA kF0 kF1 : nat).
Variable rel : (Z -> Z -> reg) -> Z -> Z -> xstate -> Prop.
Hypothesis B2 : forall acc dc m s, rel acc dc m s -> 0 <= dc -> 2 * dc + 4 <= P ->
  exists s' R0 R1, rhs_words n R0 (cellR B dc) /\ rhs_words n R1 (cellR B (dc + 1)) /\
    xsteps k2 n lhs rhs prog pc2 s =
      Some (if negb ((0 <=? m) && (m <? 2)) && negb (m - 2 =? 0) then pc2 else pcA, s') /\
    rel (acc_next n A (dc + 1) R1 (acc_next n A dc R0 acc)) (dc + 2) (m - 2) s'.
Hypothesis B1 : forall acc dc m s, rel acc dc m s -> 0 <= dc -> 2 * dc + 2 <= P ->
  exists s' R0, rhs_words n R0 (cellR B dc) /\
    xsteps k1 n lhs rhs prog pc1 s = Some (if negb (m - 1 =? 0) then pc1 else pcF, s') /\
    rel (acc_next n A dc R0 acc) (dc + 1) (m - 1) s'.
Hypothesis BA : forall acc dc m s, rel acc dc m s -> m <= 0 ->
  exists s', xsteps kA n lhs rhs prog pcA s = Some (pcF, s') /\ rel acc dc m s'.
Variables (dst cs start : Z) (res : mem) (old : Z -> Z -> Z) (qs : list (Z * Z)).
Hypothesis Hinj : forall r c r' c', 0 <= r < C * N -> 0 <= c < 4 -> 0 <= r' < C * N -> 0 <= c' < 4 ->
  r * 1 + c * cs = r' * 1 + c' * cs -> r = r' /\ c = c'.
Hypothesis Hold : forall r c, 0 <= r < C * N -> 0 <= c < 4 -> res (dst + (r * 1 + c * cs)) = Some (old r c).
Hypothesis Hqs : NoDup qs /\ forall c rc, In (c, rc) qs <-> 0 <= c < 4 /\ 0 <= rc < C.
Hypothesis F0 : forall acc dc m s, rel acc dc m s -> start = 0 ->
  exists s', xsteps kF0 n lhs rhs prog pcF s = Some (length prog, s') /\
    xs_dst s' = storesT n res (map (fun p => (4 * fst p, snd p)) (store_list n dst cs qs acc)).
Hypothesis F1 : forall acc dc m s, rel acc dc m s -> start <> 0 ->
  exists s', xsteps kF1 n lhs rhs prog pcF s = Some (length prog, s') /\
    xs_dst s' = storesT n res (map (fun p => (4 * fst p, snd p)) (store_list n dst cs qs
      (fun rc c => v_paddd n (t_load n res (4 * (dst + (N * rc + c * cs)))) (acc rc c)))).

Lemma whole_ok m fuel s0 : 1 <= m -> levels m <= P ->
  (exists s acc, xsteps k0 n lhs rhs prog 0 s0 = Some (if m - 2 <? 0 then pc1 else pc2, s) /\
     rel acc 0 m s /\ (forall rc c, exists x, acc rc c = v_xor x x)) ->
  (k0 + (if (m =? 1)%Z then k1 else Z.to_nat ((m + 1) / 2)%Z * k2 + kA) + (kF0 + kF1) <= fuel)%nat ->
  exists s', xexec fuel n lhs rhs prog 0 s0 = Some s' /\
    (forall r c, 0 <= r < C * N -> 0 <= c < 4 -> xs_dst s' (dst + (r * 1 + c * cs)) =
       Some (wrapS 32 ((if start =? 0 then 0 else old r c) + sumZ (fun d => A r d * B c d) 0 (levels m)))) /\
    (forall a, (forall r c, 0 <= r < C * N -> 0 <= c < 4 -> a <> dst + (r * 1 + c * cs)) -> xs_dst s' a = res a).
Proof.
  intros Hm HP (s & acc & E0 & Hr & HX) Hfu.
  destruct (loops_ok n C lhs rhs lp0 rp0 P A B Hn HC HL HR prog pc1 pc2 pcA pcF k0 k1 k2 kA rel B2 B1 BA acc m s0 s Hm HP E0 Hr HX)
    as (acc' & dc & m' & s1 & E1 & Hr1 & HA).
  set (K := (k0 + (if (m =? 1)%Z then k1 else Z.to_nat ((m + 1) / 2)%Z * k2 + kA))%nat) in *.
  assert (Hend : forall k s2, xsteps k n lhs rhs prog pcF s1 = Some (length prog, s2) -> (k <= kF0 + kF1)%nat ->
    xexec fuel n lhs rhs prog 0 s0 = Some s2).
  { intros k s2 E Hk. replace fuel with (K + (fuel - K))%nat by lia. rewrite (xexec_steps _ _ _ _ _ _ _ _ _ _ E1).
    replace (fuel - K)%nat with (k + (fuel - K - k))%nat by lia. rewrite (xexec_steps _ _ _ _ _ _ _ _ _ _ E). apply xexec_end. }
  destruct (Z.eqb_spec start 0) as [Es | Es].
  - destruct (F0 _ _ _ _ Hr1 Es) as (s2 & E2 & D2). exists s2. split; [eapply Hend; [exact E2|lia]|]. rewrite D2.
    destruct (stores_finish n C dst cs res old Hn HC Hinj Hold qs Hqs acc') as (_ & S2 & S3). split; [|exact S3].
    intros r c Hr' Hc. rewrite S2 by assumption. f_equal. rewrite Z.add_0_l.
    destruct (row_split n C dst cs res old Hn HC Hinj Hold r Hr') as (Q1 & Q2 & Q3). rewrite HA by assumption. rewrite <- Q3. reflexivity.
  - destruct (F1 _ _ _ _ Hr1 Es) as (s2 & E2 & D2). exists s2. split; [eapply Hend; [exact E2|lia]|]. rewrite D2.
    match type of D2 with _ = storesT _ _ (map _ (store_list _ _ _ _ ?F)) =>
      destruct (stores_finish n C dst cs res old Hn HC Hinj Hold qs Hqs F) as (_ & S2 & S3) end. split; [|exact S3].
    intros r c Hr' Hc. rewrite S2 by assumption. f_equal. cbv beta.
    destruct (row_split n C dst cs res old Hn HC Hinj Hold r Hr') as (Q1 & Q2 & Q3).
    destruct (load_finish n C dst cs res old Hn HC Hinj Hold (r / N) c Q1 Hc) as [_ G].
    rewrite g_paddd by assumption. rewrite G by assumption. rewrite HA by assumption. rewrite <- Q3.
    rewrite wrapS_add_l, wrapS_add_r by lia. reflexivity.
Qed.
End Whole.

(* ------------------------------------------------------------------ *)
(* formats: kernel_sse.h 30-33, 209-213, kernel_avx.h 30-34.  The AVX2 kernel is
   called 24x8 but its format has one rhs cell of width 4. *)
Definition SSE64_fmt : kernel_fmt :=
  mk_kernel_fmt (mk_side_fmt 4 2 CWidthMajor 3 FUint8) (mk_side_fmt 4 2 CWidthMajor 1 FUint8) 16.
Definition SSE32_fmt : kernel_fmt :=
  mk_kernel_fmt (mk_side_fmt 4 2 CWidthMajor 1 FUint8) (mk_side_fmt 4 2 CWidthMajor 1 FUint8) 16.
Definition AVX2_fmt : kernel_fmt :=
  mk_kernel_fmt (mk_side_fmt 8 2 CWidthMajor 3 FUint8) (mk_side_fmt 4 2 CWidthMajor 1 FUint8) 32.
(* The kernels, for any previous contents of the registers *)
Definition SSE64_kernel (junk : list reg) (t0 t1 t2 : Z) (fl : flags) : kernel :=
  mk_kernel SSE64_fmt (x86_Run 4 SSE4_64_Kernel12x4Depth2_asm SSE64_fmt junk t0 t1 t2 fl) sse_packer (Some Sse).
Definition SSE32_kernel (junk : list reg) (t0 t1 t2 : Z) (fl : flags) : kernel :=
  mk_kernel SSE32_fmt (x86_Run 4 SSE4_32_Kernel4x4Depth2_asm SSE32_fmt junk t0 t1 t2 fl) sse_packer (Some Sse).
Definition AVX2_kernel (junk : list reg) (t0 t1 t2 : Z) (fl : flags) : kernel :=
  mk_kernel AVX2_fmt (x86_Run 8 AVX2_64_Kernel24x8Depth2_asm AVX2_fmt junk t0 t1 t2 fl) avx_packer None.

Lemma levels_le reg m : 1 <= m -> (4 | reg) -> 0 < reg -> 2 * m <= levels m <= RoundUp reg (2 * m).
Proof.
  intros Hm [q ->] Hq. unfold levels.
  destruct (RoundUp_spec (q * 4) (2 * m) Hq) as (k & E & Hge). destruct (m =? 1) eqn:Em; [lia|].
  split; [lia|]. rewrite E. assert (k * (q * 4) = 4 * (k * q)) by ring. rewrite E in Hge. lia.
Qed.

(* the contract's data, as the blocks want it *)
Lemma lhs_data n C b p run A : 1 <= Z.of_nat n -> holds_run (mk_side_fmt (Z.of_nat n) 2 CWidthMajor C FUint8) b p run A ->
  forall w d, 0 <= w < C * Z.of_nat n -> 0 <= d < run ->
  b (p + ((d / 2 * C + w / Z.of_nat n) * (Z.of_nat n * 2) + (d mod 2 + w mod Z.of_nat n * 2))) = Some (A w d) /\ 0 <= A w d < 256.
Proof.
  intros Hn H w d Hw Hd. destruct (H w d) as (x & E & Hx & Ex); [unfold sf_width; cbn [sf_cells sf_cw]; lia|exact Hd|].
  cbn [operand_value sf_signed sf_kind] in Ex. subst x. split; [|exact Hx]. rewrite <- E. reflexivity.
Qed.
Lemma rhs_data b p run B : holds_run (mk_side_fmt 4 2 CWidthMajor 1 FUint8) b p run B ->
  forall c d, 0 <= c < 4 -> 0 <= d < run -> b (p + (d / 2 * 8 + (d mod 2 + c * 2))) = Some (B c d) /\ 0 <= B c d < 256.
Proof.
  intros H c d Hc Hd. destruct (H c d) as (x & E & Hx & Ex); [unfold sf_width; cbn [sf_cells sf_cw]; lia|exact Hd|].
  cbn [operand_value sf_signed sf_kind] in Ex. subst x. split; [|exact Hx]. rewrite <- E.
  unfold run_index, cell_off. cbn [sf_cw sf_cd sf_cells sf_order]. f_equal. f_equal.
  rewrite (Z.div_small c 4), (Z.mod_small c 4) by lia. lia.
Qed.

(* the value specified by the contract *)
Lemma finish_contract m k lhs lp rhs rp start run A B old r c M :
  0 < kf_reg k -> holds_run (kf_lhs k) lhs lp (RoundUp (kf_reg k) run) A -> holds_run (kf_rhs k) rhs rp (RoundUp (kf_reg k) run) B ->
  0 <= r < kRows k -> 0 <= c < kCols k -> 0 < run -> run <= M <= RoundUp (kf_reg k) run ->
  (m = Wrap \/ (255 * 255 * RoundUp (kf_reg k) run <= 2 ^ 31 - 1 /\
       (start = 0 \/ forall r c, 0 <= r < kRows k -> 0 <= c < kCols k ->
          Z.abs (old r c) + 255 * 255 * RoundUp (kf_reg k) run <= 2 ^ 31 - 1))) ->
  let v := wrapS 32 ((if start =? 0 then 0 else old r c) + sumZ (fun d => A r d * B c d) 0 M) in
  (m = Wrap \/ Z.abs v <= (if start =? 0 then 0 else Z.abs (old r c)) + 255 * 255 * RoundUp (kf_reg k) run) /\
  ((forall d, 0 <= d < run -> True) ->
   (forall d, run <= d < RoundUp (kf_reg k) run -> A r d = 0 /\ B c d = 0) ->
   v = wrapS 32 ((if start =? 0 then 0 else old r c) + sumZ (fun d => A r d * B c d) 0 run)).
Proof.
  intros Hreg HA HB Hr Hc Hrun HM Hm v. split.
  - destruct Hm as [?|[H1 H2]]; [left; assumption|right].
    assert (Bd := run_bound _ _ _ _ _ _ _ _ _ r c M HA HB ltac:(unfold sf_width, kRows in *; lia) ltac:(unfold sf_width, kCols in *; lia) ltac:(lia)).
    assert (B2 : Z.abs ((if start =? 0 then 0 else old r c) + sumZ (fun d => A r d * B c d) 0 M) <=
      (if start =? 0 then 0 else Z.abs (old r c)) + 255 * 255 * RoundUp (kf_reg k) run) by (destruct (start =? 0); lia).
    unfold v. rewrite wrapS_small; [exact B2|lia|]. unfold int_min, int_max. change (2 ^ (32 - 1)) with (2 ^ 31).
    destruct (Z.eqb_spec start 0) as [->|N0]; [lia|]. destruct H2 as [?|H2]; [contradiction|]. pose proof (H2 r c Hr Hc). lia.
  - intros _ HZ. unfold v. f_equal. f_equal. rewrite (sumZ_split (fun d => A r d * B c d) 0 run M) by lia.
    replace (sumZ (fun d => A r d * B c d) run M) with 0; [lia|]. symmetry.
    apply sumZ_zero. intros i Hi. destruct (HZ i ltac:(lia)) as [-> _]. reflexivity.
Qed.

(* an address is an entry of the destination or not *)
Lemma bounded_dec (P : Z -> Prop) n : (forall i, P i \/ ~ P i) -> (exists i, 0 <= i < Z.of_nat n /\ P i) \/ (forall i, 0 <= i < Z.of_nat n -> ~ P i).
Proof.
  intros HP. induction n as [|n IH]; [right; intros; lia|].
  destruct IH as [(i & Hi & Hp) | IH]; [left; exists i; split; [lia|exact Hp]|].
  destruct (HP (Z.of_nat n)) as [Hp | Hp]; [left; exists (Z.of_nat n); split; [lia|exact Hp]|right].
  intros i Hi. destruct (Z.eq_dec i (Z.of_nat n)) as [-> | Ne]; [exact Hp|apply IH; lia].
Qed.
Lemma entry_dec rows cols dst cs a :
  (exists r c, 0 <= r < rows /\ 0 <= c < cols /\ a = dst + (r * 1 + c * cs)) \/
  (forall r c, 0 <= r < rows -> 0 <= c < cols -> a <> dst + (r * 1 + c * cs)).
Proof.
  destruct (bounded_dec (fun r => exists c, 0 <= c < Z.of_nat (Z.to_nat cols) /\ a = dst + (r * 1 + c * cs)) (Z.to_nat rows)) as [(r & Hr & c & Hc & E) | H].
  - intros r. destruct (bounded_dec (fun c => a = dst + (r * 1 + c * cs)) (Z.to_nat cols)) as [H | H].
    + intros c. destruct (Z.eq_dec a (dst + (r * 1 + c * cs))); tauto.
    + left. exact H.
    + right. intros (c & Hc & E). exact (H c Hc E).
  - left. exists r, c. repeat split; try lia; exact E.
  - right. intros r c Hr Hc E. apply (H r); [lia|]. exists c. split; [lia|exact E].
Qed.
(* what the program computes, for any previous contents of the registers *)
Lemma SSE64_run junk t0 t1 t2 fl result dst cs lhs lp rhs rp start M A B old : length junk = 16%nat -> 1 <= M ->
  (forall r c r' c', 0 <= r < 12 -> 0 <= c < 4 -> 0 <= r' < 12 -> 0 <= c' < 4 ->
     r * 1 + c * cs = r' * 1 + c' * cs -> r = r' /\ c = c') ->
  holds_run (kf_lhs SSE64_fmt) lhs lp (levels M) A -> holds_run (kf_rhs SSE64_fmt) rhs rp (levels M) B ->
  (forall r c, 0 <= r < 12 -> 0 <= c < 4 -> result (dst + (r * 1 + c * cs)) = Some (old r c)) ->
  exists result', k_run (SSE64_kernel junk t0 t1 t2 fl) result dst 1 cs lhs lp rhs rp start (M * 2) = Some result' /\
    (forall r c, 0 <= r < 12 -> 0 <= c < 4 -> result' (dst + (r * 1 + c * cs)) =
       Some (wrapS 32 ((if start =? 0 then 0 else old r c) + sumZ (fun d => A r d * B c d) 0 (levels M)))) /\
    (forall a, (forall r c, 0 <= r < 12 -> 0 <= c < 4 -> a <> dst + (r * 1 + c * cs)) -> result' a = result a).
Proof.
  intros Hj HM Hinj HA HB Hold. set (D := levels M) in *.
  pose proof (lhs_data 4 3 lhs lp D A ltac:(lia) HA) as HL. pose proof (rhs_data rhs rp D B HB) as HR.
  destruct (whole_ok 4 3 lhs rhs lp rp D A B ltac:(lia) ltac:(lia) HL HR SSE4_64_Kernel12x4Depth2_asm
    107 18 104 151 18 44 86 3 14 26 (SSE64_rel lp rp dst start cs result)
    (SSE64_loop2 lhs rhs lp rp D dst start cs result A B HL HR)
    (SSE64_loop1 lhs rhs lp rp D dst start cs result A B HL HR)
    (SSE64_after lhs rhs lp rp D dst start cs result A B HL HR)
    dst cs start result old SSE64_qs Hinj Hold SSE64_qs_ok
    (SSE64_finish0 lhs rhs lp rp D dst start cs result A B HL HR old Hinj Hold)
    (SSE64_finish1 lhs rhs lp rp D dst start cs result A B HL HR old Hinj Hold)
    M (Z.to_nat (300 * (M * 2 + 2))) (mk_xs junk (mk_gprs lp rp (4 * dst) M start cs t0 t1 t2) fl result)
    HM ltac:(unfold D; lia)) as (s' & E & HV & HF).
  - destruct (SSE64_start lhs rhs lp rp D dst start cs result A B HL HR junk t0 t1 t2 fl M Hj) as (s & acc & H). exists s, acc. exact H.
  - destruct (M =? 1) eqn:E1; nia.
  - exists (xs_dst s'). split; [|split; [exact HV|exact HF]].
    unfold SSE64_kernel, x86_Run. cbn [k_run Z.eqb Pos.eqb guard bind]. change (kDepth SSE64_fmt) with 2. rewrite Z.quot_mul by lia. rewrite E. reflexivity.
Qed.
Lemma SSE64_correct m junk t0 t1 t2 fl : length junk = 16%nat -> kernel_correct m (SSE64_kernel junk t0 t1 t2 fl).
Proof.
  intros Hj. unfold kernel_correct, kernel_correct_on, kernel_run_correct. change (k_fmt (SSE64_kernel junk t0 t1 t2 fl)) with SSE64_fmt. cbv zeta.
  intros result dst cs lhs lp rhs rp start run A B old Hst Hrun Hdiv Hinj HA HB Hold Hm.
  change (kRows SSE64_fmt) with 12 in *. change (kCols SSE64_fmt) with 4 in *. change (kDepth SSE64_fmt) with 2 in *.
  change (kf_reg SSE64_fmt) with 16 in *.
  destruct Hdiv as [M ->]. assert (HM : 1 <= M) by lia.
  pose proof (levels_le 16 M HM ltac:(exists 4; reflexivity) ltac:(lia)) as Hlev.
  replace (2 * M) with (M * 2) in Hlev by lia.
  destruct (SSE64_run junk t0 t1 t2 fl result dst cs lhs lp rhs rp start M A B old Hj HM Hinj) as (res & E & HV & HF).
  - intros w d Hw Hd. apply HA; lia.
  - intros w d Hw Hd. apply HB; lia.
  - exact Hold.
  - exists res. split; [exact E|]. split; [|exact HF]. intros r c Hr Hc. eexists. split; [apply HV; lia|].
    apply (finish_contract m SSE64_fmt lhs lp rhs rp start (M * 2) A B old r c (levels M)); try assumption; reflexivity.
Qed.
(* two runs with different previous register contents end in the same memory *)
Lemma SSE64_junk junk t0 t1 t2 fl junk' t0' t1' t2' fl' result dst cs lhs lp rhs rp start M A B old :
  length junk = 16%nat -> length junk' = 16%nat -> 1 <= M ->
  (forall r c r' c', 0 <= r < 12 -> 0 <= c < 4 -> 0 <= r' < 12 -> 0 <= c' < 4 ->
     r * 1 + c * cs = r' * 1 + c' * cs -> r = r' /\ c = c') ->
  holds_run (kf_lhs SSE64_fmt) lhs lp (levels M) A -> holds_run (kf_rhs SSE64_fmt) rhs rp (levels M) B ->
  (forall r c, 0 <= r < 12 -> 0 <= c < 4 -> result (dst + (r * 1 + c * cs)) = Some (old r c)) ->
  exists r1 r2, k_run (SSE64_kernel junk t0 t1 t2 fl) result dst 1 cs lhs lp rhs rp start (M * 2) = Some r1 /\
    k_run (SSE64_kernel junk' t0' t1' t2' fl') result dst 1 cs lhs lp rhs rp start (M * 2) = Some r2 /\ forall a, r1 a = r2 a.
Proof.
  intros Hj Hj' HM Hinj HA HB Hold.
  destruct (SSE64_run junk t0 t1 t2 fl result dst cs lhs lp rhs rp start M A B old Hj HM Hinj HA HB Hold) as (r1 & E1 & V1 & F1).
  destruct (SSE64_run junk' t0' t1' t2' fl' result dst cs lhs lp rhs rp start M A B old Hj' HM Hinj HA HB Hold) as (r2 & E2 & V2 & F2).
  exists r1, r2. split; [exact E1|]. split; [exact E2|]. intros a.
  destruct (entry_dec 12 4 dst cs a) as [(r & c & Hr & Hc & ->) | H].
  - rewrite V1, V2 by assumption. reflexivity.
  - rewrite F1, F2 by exact H. reflexivity.
Qed.
(* what the program computes, for any previous contents of the registers *)
Lemma SSE32_run junk t0 t1 t2 fl result dst cs lhs lp rhs rp start M A B old : length junk = 8%nat -> 1 <= M ->
  (forall r c r' c', 0 <= r < 4 -> 0 <= c < 4 -> 0 <= r' < 4 -> 0 <= c' < 4 ->
     r * 1 + c * cs = r' * 1 + c' * cs -> r = r' /\ c = c') ->
  holds_run (kf_lhs SSE32_fmt) lhs lp (levels M) A -> holds_run (kf_rhs SSE32_fmt) rhs rp (levels M) B ->
  (forall r c, 0 <= r < 4 -> 0 <= c < 4 -> result (dst + (r * 1 + c * cs)) = Some (old r c)) ->
  exists result', k_run (SSE32_kernel junk t0 t1 t2 fl) result dst 1 cs lhs lp rhs rp start (M * 2) = Some result' /\
    (forall r c, 0 <= r < 4 -> 0 <= c < 4 -> result' (dst + (r * 1 + c * cs)) =
       Some (wrapS 32 ((if start =? 0 then 0 else old r c) + sumZ (fun d => A r d * B c d) 0 (levels M)))) /\
    (forall a, (forall r c, 0 <= r < 4 -> 0 <= c < 4 -> a <> dst + (r * 1 + c * cs)) -> result' a = result a).
Proof.
  intros Hj HM Hinj HA HB Hold. set (D := levels M) in *.
  pose proof (lhs_data 4 1 lhs lp D A ltac:(lia) HA) as HL. pose proof (rhs_data rhs rp D B HB) as HR.
  destruct (whole_ok 4 1 lhs rhs lp rp D A B ltac:(lia) ltac:(lia) HL HR SSE4_32_Kernel4x4Depth2_asm
    44 7 41 62 7 18 34 3 10 15 (SSE32_rel lp rp dst start cs result)
    (SSE32_loop2 lhs rhs lp rp D dst start cs result A B HL HR)
    (SSE32_loop1 lhs rhs lp rp D dst start cs result A B HL HR)
    (SSE32_after lhs rhs lp rp D dst start cs result A B HL HR)
    dst cs start result old SSE32_qs Hinj Hold SSE32_qs_ok
    (SSE32_finish0 lhs rhs lp rp D dst start cs result A B HL HR old Hinj Hold)
    (SSE32_finish1 lhs rhs lp rp D dst start cs result A B HL HR old Hinj Hold)
    M (Z.to_nat (300 * (M * 2 + 2))) (mk_xs junk (mk_gprs lp rp (4 * dst) M start cs t0 t1 t2) fl result)
    HM ltac:(unfold D; lia)) as (s' & E & HV & HF).
  - destruct (SSE32_start lhs rhs lp rp D dst start cs result A B HL HR junk t0 t1 t2 fl M Hj) as (s & acc & H). exists s, acc. exact H.
  - destruct (M =? 1) eqn:E1; nia.
  - exists (xs_dst s'). split; [|split; [exact HV|exact HF]].
    unfold SSE32_kernel, x86_Run. cbn [k_run Z.eqb Pos.eqb guard bind]. change (kDepth SSE32_fmt) with 2. rewrite Z.quot_mul by lia. rewrite E. reflexivity.
Qed.
Lemma SSE32_correct m junk t0 t1 t2 fl : length junk = 8%nat -> kernel_correct m (SSE32_kernel junk t0 t1 t2 fl).
Proof.
  intros Hj. unfold kernel_correct, kernel_correct_on, kernel_run_correct. change (k_fmt (SSE32_kernel junk t0 t1 t2 fl)) with SSE32_fmt. cbv zeta.
  intros result dst cs lhs lp rhs rp start run A B old Hst Hrun Hdiv Hinj HA HB Hold Hm.
  change (kRows SSE32_fmt) with 4 in *. change (kCols SSE32_fmt) with 4 in *. change (kDepth SSE32_fmt) with 2 in *.
  change (kf_reg SSE32_fmt) with 16 in *.
  destruct Hdiv as [M ->]. assert (HM : 1 <= M) by lia.
  pose proof (levels_le 16 M HM ltac:(exists 4; reflexivity) ltac:(lia)) as Hlev.
  replace (2 * M) with (M * 2) in Hlev by lia.
  destruct (SSE32_run junk t0 t1 t2 fl result dst cs lhs lp rhs rp start M A B old Hj HM Hinj) as (res & E & HV & HF).
  - intros w d Hw Hd. apply HA; lia.
  - intros w d Hw Hd. apply HB; lia.
  - exact Hold.
  - exists res. split; [exact E|]. split; [|exact HF]. intros r c Hr Hc. eexists. split; [apply HV; lia|].
    apply (finish_contract m SSE32_fmt lhs lp rhs rp start (M * 2) A B old r c (levels M)); try assumption; reflexivity.
Qed.
(* two runs with different previous register contents end in the same memory *)
Lemma SSE32_junk junk t0 t1 t2 fl junk' t0' t1' t2' fl' result dst cs lhs lp rhs rp start M A B old :
  length junk = 8%nat -> length junk' = 8%nat -> 1 <= M ->
  (forall r c r' c', 0 <= r < 4 -> 0 <= c < 4 -> 0 <= r' < 4 -> 0 <= c' < 4 ->
     r * 1 + c * cs = r' * 1 + c' * cs -> r = r' /\ c = c') ->
  holds_run (kf_lhs SSE32_fmt) lhs lp (levels M) A -> holds_run (kf_rhs SSE32_fmt) rhs rp (levels M) B ->
  (forall r c, 0 <= r < 4 -> 0 <= c < 4 -> result (dst + (r * 1 + c * cs)) = Some (old r c)) ->
  exists r1 r2, k_run (SSE32_kernel junk t0 t1 t2 fl) result dst 1 cs lhs lp rhs rp start (M * 2) = Some r1 /\
    k_run (SSE32_kernel junk' t0' t1' t2' fl') result dst 1 cs lhs lp rhs rp start (M * 2) = Some r2 /\ forall a, r1 a = r2 a.
Proof.
  intros Hj Hj' HM Hinj HA HB Hold.
  destruct (SSE32_run junk t0 t1 t2 fl result dst cs lhs lp rhs rp start M A B old Hj HM Hinj HA HB Hold) as (r1 & E1 & V1 & F1).
  destruct (SSE32_run junk' t0' t1' t2' fl' result dst cs lhs lp rhs rp start M A B old Hj' HM Hinj HA HB Hold) as (r2 & E2 & V2 & F2).
  exists r1, r2. split; [exact E1|]. split; [exact E2|]. intros a.
  destruct (entry_dec 4 4 dst cs a) as [(r & c & Hr & Hc & ->) | H].
  - rewrite V1, V2 by assumption. reflexivity.
  - rewrite F1, F2 by exact H. reflexivity.
Qed.
(* the AVX2 kernel, provided 8 more bytes are readable behind the rhs run *)
Definition readable (b : mem) (p n : Z) : Prop := forall j, 0 <= j < n -> b (p + j) <> None.
Lemma AVX2_run junk t0 t1 t2 fl result dst cs lhs lp rhs rp start M A B old : length junk = 16%nat -> 1 <= M ->
  (forall r c r' c', 0 <= r < 24 -> 0 <= c < 4 -> 0 <= r' < 24 -> 0 <= c' < 4 ->
     r * 1 + c * cs = r' * 1 + c' * cs -> r = r' /\ c = c') ->
  holds_run (kf_lhs AVX2_fmt) lhs lp (RoundUp 32 (M * 2)) A -> holds_run (kf_rhs AVX2_fmt) rhs rp (RoundUp 32 (M * 2)) B ->
  readable rhs rp (4 * RoundUp 32 (M * 2) + 8) ->
  (forall r c, 0 <= r < 24 -> 0 <= c < 4 -> result (dst + (r * 1 + c * cs)) = Some (old r c)) ->
  exists result', k_run (AVX2_kernel junk t0 t1 t2 fl) result dst 1 cs lhs lp rhs rp start (M * 2) = Some result' /\
    (forall r c, 0 <= r < 24 -> 0 <= c < 4 -> result' (dst + (r * 1 + c * cs)) =
       Some (wrapS 32 ((if start =? 0 then 0 else old r c) + sumZ (fun d => A r d * B c d) 0 (levels M)))) /\
    (forall a, (forall r c, 0 <= r < 24 -> 0 <= c < 4 -> a <> dst + (r * 1 + c * cs)) -> result' a = result a).
Proof.
  intros Hj HM Hinj HA HB HX Hold. set (D := RoundUp 32 (M * 2)) in *.
  pose proof (lhs_data 8 3 lhs lp D A ltac:(lia) HA) as HL. pose proof (rhs_data rhs rp D B HB) as HR.
  pose proof (levels_le 32 M HM ltac:(exists 8; reflexivity) ltac:(lia)) as Hlev.
  replace (2 * M) with (M * 2) in Hlev by lia. fold D in Hlev.
  destruct (whole_ok 8 3 lhs rhs lp rp D A B ltac:(lia) ltac:(lia) HL HR AVX2_64_Kernel24x8Depth2_asm
    115 18 112 160 18 45 94 3 14 26 (AVX_rel lp rp dst start cs result)
    (AVX_loop2 lhs rhs lp rp D dst start cs result A B HL HR HX)
    (AVX_loop1 lhs rhs lp rp D dst start cs result A B HL HR HX)
    (AVX_after lhs rhs lp rp D dst start cs result A B HL HR HX)
    dst cs start result old AVX_qs Hinj Hold AVX_qs_ok
    (AVX_finish0 lhs rhs lp rp D dst start cs result A B HL HR HX old Hinj Hold)
    (AVX_finish1 lhs rhs lp rp D dst start cs result A B HL HR HX old Hinj Hold)
    M (Z.to_nat (300 * (M * 2 + 2))) (mk_xs junk (mk_gprs lp rp (4 * dst) M start cs t0 t1 t2) fl result)
    HM ltac:(lia)) as (s' & E & HV & HF).
  - destruct (AVX_start lhs rhs lp rp D dst start cs result A B HL HR HX junk t0 t1 t2 fl M Hj) as (s & acc & H). exists s, acc. exact H.
  - destruct (M =? 1) eqn:E1; nia.
  - exists (xs_dst s'). split; [|split; [exact HV|exact HF]].
    unfold AVX2_kernel, x86_Run. cbn [k_run Z.eqb Pos.eqb guard bind]. change (kDepth AVX2_fmt) with 2. rewrite Z.quot_mul by lia. rewrite E. reflexivity.
Qed.
Lemma AVX2_correct junk t0 t1 t2 fl : length junk = 16%nat ->
  forall result dst cs lhs lp rhs rp start run A B old,
    0 <= start -> 0 < run -> (2 | run) ->
    (forall r c r' c', 0 <= r < 24 -> 0 <= c < 4 -> 0 <= r' < 24 -> 0 <= c' < 4 ->
       r * 1 + c * cs = r' * 1 + c' * cs -> r = r' /\ c = c') ->
    holds_run (kf_lhs AVX2_fmt) lhs lp (RoundUp 32 run) A ->
    holds_run (kf_rhs AVX2_fmt) rhs rp (RoundUp 32 run) B ->
    readable rhs rp (4 * RoundUp 32 run + 8) ->
    (forall r c, 0 <= r < 24 -> 0 <= c < 4 -> result (dst + (r * 1 + c * cs)) = Some (old r c)) ->
    exists result',
      k_run (AVX2_kernel junk t0 t1 t2 fl) result dst 1 cs lhs lp rhs rp start run = Some result' /\
      (forall r c, 0 <= r < 24 -> 0 <= c < 4 ->
         (forall d, run <= d < RoundUp 32 run -> A r d = 0 /\ B c d = 0) ->
         result' (dst + (r * 1 + c * cs)) =
           Some (wrapS 32 ((if start =? 0 then 0 else old r c) + sumZ (fun d => A r d * B c d) 0 run))) /\
      (forall a, (forall r c, 0 <= r < 24 -> 0 <= c < 4 -> a <> dst + (r * 1 + c * cs)) ->
         result' a = result a).
Proof.
  intros Hj result dst cs lhs lp rhs rp start run A B old Hst Hrun Hdiv Hinj HA HB HX Hold.
  destruct Hdiv as [M ->]. assert (HM : 1 <= M) by lia.
  pose proof (levels_le 32 M HM ltac:(exists 8; reflexivity) ltac:(lia)) as Hlev. replace (2 * M) with (M * 2) in Hlev by lia.
  destruct (AVX2_run junk t0 t1 t2 fl result dst cs lhs lp rhs rp start M A B old Hj HM Hinj HA HB HX Hold) as (res & E & HV & HF).
  exists res. split; [exact E|]. split; [|exact HF]. intros r c Hr Hc HZ. rewrite HV by lia. f_equal.
  apply (finish_contract Wrap AVX2_fmt lhs lp rhs rp start (M * 2) A B old r c (levels M)); try assumption; auto; reflexivity.
Qed.
(* the packed run itself can be read *)
Lemma rhs_readable b p run B : (2 | run) -> holds_run (mk_side_fmt 4 2 CWidthMajor 1 FUint8) b p run B -> readable b p (4 * run).
Proof.
  intros [q ->] H j Hj. destruct (rhs_data b p (q * 2) B H (j mod 8 / 2) (j / 8 * 2 + j mod 2)) as [E _]; [lia..|].
  replace ((j / 8 * 2 + j mod 2) / 2 * 8 + ((j / 8 * 2 + j mod 2) mod 2 + j mod 8 / 2 * 2)) with j in E by lia. congruence.
Qed.
Lemma AVX2_behind m junk t0 t1 t2 fl : length junk = 16%nat ->
  kernel_correct_behind 8 (fun _ _ => True) m (AVX2_kernel junk t0 t1 t2 fl).
Proof.
  intros Hj. unfold kernel_correct_behind, kernel_run_correct. change (k_fmt (AVX2_kernel junk t0 t1 t2 fl)) with AVX2_fmt. cbv zeta.
  intros result dst cs lhs lp rhs rp start run A B old Hbeh Hst Hrun Hdiv Hinj HA HB Hold Hm.
  change (kRows AVX2_fmt) with 24 in *. change (kCols AVX2_fmt) with 4 in *. change (kDepth AVX2_fmt) with 2 in *.
  change (kf_reg AVX2_fmt) with 32 in *.
  destruct Hdiv as [M ->]. assert (HM : 1 <= M) by lia.
  pose proof (levels_le 32 M HM ltac:(exists 8; reflexivity) ltac:(lia)) as Hlev. replace (2 * M) with (M * 2) in Hlev by lia.
  assert (HX : readable rhs rp (4 * RoundUp 32 (M * 2) + 8)).
  { assert (H2 : (2 | RoundUp 32 (M * 2))) by (apply Z.divide_trans with 32; [exists 16; reflexivity|apply RoundUp_div; lia]).
    pose proof (rhs_readable rhs rp _ B H2 HB) as HR. intros j Hj2.
    destruct (Z_lt_le_dec j (4 * RoundUp 32 (M * 2))) as [Hlt|Hge]; [apply HR; lia|].
    replace (rp + j) with (rp + 4 * RoundUp 32 (M * 2) + (j - 4 * RoundUp 32 (M * 2))) by lia. apply Hbeh. lia. }
  destruct (AVX2_run junk t0 t1 t2 fl result dst cs lhs lp rhs rp start M A B old Hj HM Hinj HA HB HX Hold) as (res & E & HV & HF).
  exists res. split; [exact E|]. split; [|exact HF]. intros r c Hr Hc. eexists. split; [apply HV; lia|].
  apply (finish_contract m AVX2_fmt lhs lp rhs rp start (M * 2) A B old r c (levels M)); try assumption; reflexivity.
Qed.
Lemma AVX2_usable m junk t0 t1 t2 fl : length junk = 16%nat -> kernel_usable m (AVX2_kernel junk t0 t1 t2 fl).
Proof.
  intros Hj result dst cs lhs lp rhs rp start run A B old H.
  apply (AVX2_behind m junk t0 t1 t2 fl Hj). intros j Hj8. apply H. lia.
Qed.
Lemma AVX2_junk junk t0 t1 t2 fl junk' t0' t1' t2' fl' result dst cs lhs lp rhs rp start M A B old :
  length junk = 16%nat -> length junk' = 16%nat -> 1 <= M ->
  (forall r c r' c', 0 <= r < 24 -> 0 <= c < 4 -> 0 <= r' < 24 -> 0 <= c' < 4 ->
     r * 1 + c * cs = r' * 1 + c' * cs -> r = r' /\ c = c') ->
  holds_run (kf_lhs AVX2_fmt) lhs lp (RoundUp 32 (M * 2)) A -> holds_run (kf_rhs AVX2_fmt) rhs rp (RoundUp 32 (M * 2)) B ->
  readable rhs rp (4 * RoundUp 32 (M * 2) + 8) ->
  (forall r c, 0 <= r < 24 -> 0 <= c < 4 -> result (dst + (r * 1 + c * cs)) = Some (old r c)) ->
  exists r1 r2, k_run (AVX2_kernel junk t0 t1 t2 fl) result dst 1 cs lhs lp rhs rp start (M * 2) = Some r1 /\
    k_run (AVX2_kernel junk' t0' t1' t2' fl') result dst 1 cs lhs lp rhs rp start (M * 2) = Some r2 /\ forall a, r1 a = r2 a.
Proof.
  intros Hj Hj' HM Hinj HA HB HX Hold.
  destruct (AVX2_run junk t0 t1 t2 fl result dst cs lhs lp rhs rp start M A B old Hj HM Hinj HA HB HX Hold) as (r1 & E1 & V1 & F1).
  destruct (AVX2_run junk' t0' t1' t2' fl' result dst cs lhs lp rhs rp start M A B old Hj' HM Hinj HA HB HX Hold) as (r2 & E2 & V2 & F2).
  exists r1, r2. split; [exact E1|]. split; [exact E2|]. intros a.
  destruct (entry_dec 24 4 dst cs a) as [(r & c & Hr & Hc & ->) | H].
  - rewrite V1, V2 by assumption. reflexivity.
  - rewrite F1, F2 by exact H. reflexivity.
Qed.

(* the formats are usable, so a GEMM on these kernels satisfies every theorem
   about gemm_config_ok *)
Lemma SSE64_fmt_ok : kernel_fmt_ok SSE64_fmt.
Proof. repeat split; cbn; try lia; try discriminate; exists 8; reflexivity. Qed.
Lemma SSE32_fmt_ok : kernel_fmt_ok SSE32_fmt.
Proof. repeat split; cbn; try lia; try discriminate; exists 8; reflexivity. Qed.
Lemma SSE64_packs m junk t0 t1 t2 fl : packs_correct m (SSE64_kernel junk t0 t1 t2 fl).
Proof. apply sse_packs; [exact SSE64_fmt_ok|reflexivity|exists 2; reflexivity]. Qed.
Lemma SSE32_packs m junk t0 t1 t2 fl : packs_correct m (SSE32_kernel junk t0 t1 t2 fl).
Proof. apply sse_packs; [exact SSE32_fmt_ok|reflexivity|exists 2; reflexivity]. Qed.
Lemma AVX2_fmt_ok : kernel_fmt_ok AVX2_fmt.
Proof. repeat split; cbn; try lia; try discriminate; exists 16; reflexivity. Qed.
Lemma AVX2_packs m junk t0 t1 t2 fl : packs_correct m (AVX2_kernel junk t0 t1 t2 fl).
Proof. apply avx_packs; [exact AVX2_fmt_ok|reflexivity|exists 2; reflexivity]. Qed.
