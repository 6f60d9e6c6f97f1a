(* X86Proofs.v: lanes of the x86 vector instructions; blocks of instructions *)
From Verif Require Import Base BaseLemmas SimdModel SimdProofs X86Model.

Lemma get_vpack n w f i : 1 <= w -> 0 <= i < Z.of_nat n -> get w i (vpack n w f) = wrapS w (f i).
Proof.
  intros Hw Hi. apply get_ext; [lia|lia|]. intros j Hj. unfold vpack. now apply pack_n_bits.
Qed.
Lemma g_paddd n a b i : 0 <= i < Z.of_nat n -> get 32 i (v_paddd n a b) = wrapS 32 (get 32 i a + get 32 i b).
Proof. intros Hi. unfold v_paddd. now rewrite get_vpack by lia. Qed.
Lemma g_pmaddwd n a b i : 0 <= i < Z.of_nat n -> get 32 i (v_pmaddwd n a b) =
  wrapS 32 (get 16 (2 * i) a * get 16 (2 * i) b + get 16 (2 * i + 1) a * get 16 (2 * i + 1) b).
Proof. intros Hi. unfold v_pmaddwd. now rewrite get_vpack by lia. Qed.
Lemma get16_of_32 n f i b : 0 <= i < Z.of_nat n -> b = 0 \/ b = 1 ->
  get 16 (2 * i + b) (vpack n 32 f) = wrapS 16 (Z.shiftr (f i) (16 * b)).
Proof.
  intros Hi Hb. apply get_ext; [lia|destruct Hb; lia|]. intros j Hj.
  rewrite Z.shiftr_spec by lia. replace (16 * (2 * i + b) + j) with (32 * i + (16 * b + j)) by lia.
  unfold vpack. rewrite pack_n_bits by (destruct Hb; lia). f_equal. lia.
Qed.
Lemma get16_get32 s b a : 0 <= s -> b = 0 \/ b = 1 -> wrapS 16 (Z.shiftr (get 32 s a) (16 * b)) = get 16 (2 * s + b) a.
Proof.
  intros Hs Hb. symmetry. apply get_ext; [lia|destruct Hb; lia|]. intros j Hj.
  rewrite Z.shiftr_spec by lia. rewrite get_bits by (destruct Hb; lia). f_equal. lia.
Qed.
Lemma g_pshufd n imm a i b : 0 <= i < Z.of_nat n -> b = 0 \/ b = 1 ->
  get 16 (2 * i + b) (v_pshufd n imm a) =
  get 16 (2 * (4 * (i / 4) + Z.land (Z.shiftr imm (2 * (i mod 4))) 3) + b) a.
Proof.
  intros Hi Hb. unfold v_pshufd. rewrite get16_of_32 by assumption. apply get16_get32; [|exact Hb].
  assert (0 <= Z.land (Z.shiftr imm (2 * (i mod 4))) 3) by (apply Z.land_nonneg; right; lia).
  pose proof (Z.div_pos i 4). lia.
Qed.
(* broadcast of dword c of each half *)
Lemma shuf_sel c i : 0 <= c < 4 -> 0 <= i -> Z.land (Z.shiftr (85 * c) (2 * (i mod 4))) 3 = c.
Proof.
  intros Hc Hi. pose proof (Z.mod_pos_bound i 4 ltac:(lia)) as B. set (j := i mod 4) in *. clearbody j. clear Hi.
  assert (c = 0 \/ c = 1 \/ c = 2 \/ c = 3) as C by lia.
  assert (j = 0 \/ j = 1 \/ j = 2 \/ j = 3) as J by lia.
  destruct C as [-> | [-> | [-> | ->]]]; destruct J as [-> | [-> | [-> | ->]]]; reflexivity.
Qed.
Lemma g_bytes n l j : 0 <= j < Z.of_nat n -> 0 <= nth (Z.to_nat j) l 0 < 256 ->
  get 16 j (vec_of n 16 l) = nth (Z.to_nat j) l 0.
Proof. intros Hj Hb. unfold vec_of. rewrite get_vpack by lia. apply wrapS_small; unfold int_min, int_max; cbn; lia. Qed.

Lemma load_cells_ok m a n f : (forall j, 0 <= j < Z.of_nat n -> m (a + j) = Some (f j)) ->
  load_cells m a n = Some (map (fun i => f (Z.of_nat i)) (seq 0 n)).
Proof.
  revert a f. induction n as [|n IH]; intros a f H; [reflexivity|].
  cbn [load_cells seq map]. unfold rd. pose proof (H 0 ltac:(lia)) as H0. rewrite Z.add_0_r in H0. rewrite H0. cbn [bind].
  rewrite (IH (a + 1) (fun j => f (j + 1))).
  - cbn [bind]. f_equal. f_equal. rewrite <- seq_shift, map_map. apply map_ext. intros x. f_equal. lia.
  - intros j Hj. replace (a + 1 + j) with (a + (j + 1)) by lia. apply H. lia.
Qed.
Lemma nth_map_seq (f : Z -> Z) n j : 0 <= j < Z.of_nat n ->
  nth (Z.to_nat j) (map (fun i => f (Z.of_nat i)) (seq 0 n)) 0 = f j.
Proof.
  intros Hj. rewrite (nth_indep _ 0 (f (Z.of_nat 0))) by (rewrite map_length, seq_length; lia).
  rewrite (map_nth (fun i => f (Z.of_nat i))), seq_nth by lia. f_equal. lia.
Qed.
(* the 2n bytes f, zero-extended *)
Definition wide (n : nat) (f : Z -> Z) : reg := vec_of (2 * n) 16 (map (fun i => f (Z.of_nat i)) (seq 0 (2 * n))).
Lemma v_pmovzxbw_ok n m a f : (forall j, 0 <= j < 2 * Z.of_nat n -> m (a + j) = Some (f j)) ->
  v_pmovzxbw n m a = Some (wide n f).
Proof. intros H. unfold v_pmovzxbw. rewrite (load_cells_ok m a (2 * n) f); [reflexivity|]. intros j Hj. apply H. lia. Qed.
Lemma g_wide n f j : 0 <= j < 2 * Z.of_nat n -> 0 <= f j < 256 -> get 16 j (wide n f) = f j.
Proof. intros Hj Hb. unfold wide. rewrite g_bytes; rewrite ?nth_map_seq by lia; try lia. Qed.

(* one product of a cell column, accumulated; R holds the words of a rhs cell in
   (each half of) the register *)
Definition mac (n : nat) (c : Z) (L R acc : reg) : reg := v_paddd n (v_pmaddwd n L (v_pshufd n (85 * c) R)) acc.
Definition rhs_words (n : nat) (R : reg) (f : Z -> Z) : Prop :=
  forall i j, 0 <= i < Z.of_nat n -> 0 <= j < 8 -> get 16 (8 * (i / 4) + j) R = f j.
Lemma g_mac n c fL R fR acc i : 0 <= c < 4 -> 0 <= i < Z.of_nat n ->
  (forall j, 0 <= j < 2 * Z.of_nat n -> 0 <= fL j < 256) -> rhs_words n R fR ->
  get 32 i (mac n c (wide n fL) R acc) =
  wrapS 32 (fL (2 * i) * fR (2 * c) + fL (2 * i + 1) * fR (2 * c + 1) + get 32 i acc).
Proof.
  intros Hc Hi BL HR. unfold mac. rewrite g_paddd by lia. rewrite g_pmaddwd by lia.
  rewrite wrapS_add_l by lia. f_equal. f_equal.
  pose proof (g_pshufd n (85 * c) R i 0 ltac:(lia) ltac:(lia)) as E0.
  pose proof (g_pshufd n (85 * c) R i 1 ltac:(lia) ltac:(lia)) as E1.
  rewrite shuf_sel in E0, E1 by lia. rewrite Z.add_0_r in E0. rewrite E0, E1.
  replace (2 * (4 * (i / 4) + c) + 0) with (8 * (i / 4) + 2 * c) by lia.
  replace (2 * (4 * (i / 4) + c) + 1) with (8 * (i / 4) + (2 * c + 1)) by lia.
  rewrite !HR by lia. rewrite !g_wide; try lia; try (apply BL; lia).
Qed.
Lemma rhs_words_4 f : (forall j, 0 <= j < 8 -> 0 <= f j < 256) -> rhs_words 4 (wide 4 f) f.
Proof.
  intros B i j Hi Hj. rewrite Z.div_small by lia. rewrite Z.mul_0_r, Z.add_0_l. apply g_wide; [lia|]. now apply B.
Qed.
Lemma g_permq a i : 0 <= i < 16 -> get 16 i (v_permq 68 a) = get 16 (i mod 8) a.
Proof.
  intros Hi. apply get_ext; [lia|lia|]. intros j Hj. unfold v_permq, vpack.
  replace (16 * i + j) with (64 * (i / 4) + (16 * (i mod 4) + j)) by lia.
  rewrite pack_n_bits by lia.
  rewrite get_bits by (try lia; apply Z.land_nonneg; right; lia).
  rewrite Z.shiftr_spec by lia. f_equal.
  assert (E : Z.land (Z.shiftr 68 (2 * (i / 4))) 3 = (i / 4) mod 2).
  { assert (i / 4 = 0 \/ i / 4 = 1 \/ i / 4 = 2 \/ i / 4 = 3) as D by lia.
    destruct D as [-> | [-> | [-> | ->]]]; reflexivity. }
  rewrite E. lia.
Qed.
Lemma rhs_words_8 f : (forall j, 0 <= j < 8 -> 0 <= f j < 256) -> rhs_words 8 (v_permq 68 (wide 8 f)) f.
Proof.
  intros B i j Hi Hj. rewrite g_permq by lia. replace ((8 * (i / 4) + j) mod 8) with j by lia.
  apply g_wide; [lia|]. now apply B.
Qed.

(* k instructions *)
Fixpoint xsteps (k : nat) (n : nat) (lhs rhs : mem) (prog : list xop) (pc : nat) (s : xstate) : option (nat * xstate) :=
  match k with
  | O => Some (pc, s)
  | S k => match nth_error prog pc with
           | None => None
           | Some i => let* ps := xstep n lhs rhs i pc s in xsteps k n lhs rhs prog (fst ps) (snd ps)
           end
  end.
Lemma xexec_steps k f n lhs rhs prog pc s pc' s' : xsteps k n lhs rhs prog pc s = Some (pc', s') ->
  xexec (k + f) n lhs rhs prog pc s = xexec f n lhs rhs prog pc' s'.
Proof.
  revert pc s. induction k as [|k IH]; intros pc s H.
  - cbn [xsteps] in H. injection H as -> ->. reflexivity.
  - cbn [xsteps] in H. cbn [Nat.add xexec]. destruct (nth_error prog pc) as [i|]; [|discriminate].
    destruct (xstep n lhs rhs i pc s) as [ps|]; [|discriminate]. cbn [bind] in *. now apply IH.
Qed.
Lemma xexec_end f n lhs rhs prog s : xexec f n lhs rhs prog (length prog) s = Some s.
Proof.
  assert (E : nth_error prog (length prog) = None) by now apply nth_error_None.
  destruct f; cbn [xexec]; now rewrite E.
Qed.

(* total version of one instruction, with the conditions under which it agrees *)
Definition t_zx (n : nat) (m : mem) (a : Z) : reg := match v_pmovzxbw n m a with Some v => v | None => 0 end.
Definition t_load (n : nat) (m : mem) (a : Z) : reg := match v_load n m a with Some v => v | None => 0 end.
Definition t_store (n : nat) (m : mem) (a : Z) (v : reg) : mem := match v_store n m a v with Some m' => m' | None => m end.
Definition xstepT (n : nat) (lhs rhs : mem) (i : xop) (pc : nat) (s : xstate) : list Prop * (nat * xstate) :=
  let g := xs_g s in
  match i with
  | XPxor s1 s2 d => ([], (S pc, vset s d (v_xor (vget s s1) (vget s s2))))
  | XPmovzxbw b disp d =>
      let m := match b with Lhs_ptr => lhs | _ => rhs end in
      ([v_pmovzxbw n m (disp + gget g b) <> None], (S pc, vset s d (t_zx n m (disp + gget g b))))
  | XPshufd imm s1 d => ([], (S pc, vset s d (v_pshufd n imm (vget s s1))))
  | XPermq imm s1 d => ([], (S pc, vset s d (v_permq imm (vget s s1))))
  | XPmaddwd s1 s2 d => ([], (S pc, vset s d (v_pmaddwd n (vget s s1) (vget s s2))))
  | XPaddd s1 s2 d => ([], (S pc, vset s d (v_paddd n (vget s s1) (vget s s2))))
  | XPadddM a s2 d => ([v_load n (xs_dst s) (xaddr_of g a) <> None],
                       (S pc, vset s d (v_paddd n (t_load n (xs_dst s) (xaddr_of g a)) (vget s s2))))
  | XStore s1 a => ([v_store n (xs_dst s) (xaddr_of g a) (vget s s1) <> None],
                    (S pc, mk_xs (xs_v s) g (xs_f s) (t_store n (xs_dst s) (xaddr_of g a) (vget s s1))))
  | XPrefetch => ([], (S pc, s))
  | XMov a d => ([], (S pc, mk_xs (xs_v s) (gset g d (gget g a)) (xs_f s) (xs_dst s)))
  | XAdd imm d => let r := gget g d + imm in ([], (S pc, gsetf s d r (mk_flags false (r =? 0) (r <? 0))))
  | XSub imm d => let r := gget g d - imm in
      ([], (S pc, gsetf s d r (mk_flags ((0 <=? gget g d) && (gget g d <? imm)) (r =? 0) (r <? 0))))
  | XDec d => let r := gget g d - 1 in ([], (S pc, gsetf s d r (mk_flags (f_c (xs_f s)) (r =? 0) (r <? 0))))
  | XShl imm d => let r := gget g d * 2 ^ imm in ([], (S pc, gsetf s d r (mk_flags false (r =? 0) (r <? 0))))
  | XLea b i sc d => ([], (S pc, mk_xs (xs_v s) (gset g d (gget g b + gget g i * sc)) (xs_f s) (xs_dst s)))
  | XTest a b => let r := Z.land (gget g a) (gget g b) in
                 ([], (S pc, mk_xs (xs_v s) g (mk_flags false (r =? 0) (r <? 0)) (xs_dst s)))
  | XJ c t => ([], (if holds_cond c (xs_f s) then t else S pc, s))
  end.
Fixpoint all_of (l : list Prop) : Prop := match l with [] => True | p :: r => p /\ all_of r end.
Lemma all_of_app a b : all_of (a ++ b) <-> all_of a /\ all_of b.
Proof. induction a as [|p a IH]; cbn; tauto. Qed.
Lemma xstepT_sound n lhs rhs i pc s : all_of (fst (xstepT n lhs rhs i pc s)) ->
  xstep n lhs rhs i pc s = Some (snd (xstepT n lhs rhs i pc s)).
Proof.
  destruct i; cbn [xstepT xstep fst snd all_of]; intros H; try reflexivity.
  - unfold t_zx. destruct (v_pmovzxbw _ _ _); [reflexivity|tauto].
  - unfold t_load. destruct (v_load _ _ _); [reflexivity|tauto].
  - unfold t_store. destruct (v_store _ _ _); [reflexivity|tauto].
Qed.
Fixpoint xrun (k : nat) (n : nat) (lhs rhs : mem) (prog : list xop) (pc : nat) (s : xstate) : list Prop * (nat * xstate) :=
  match k with
  | O => ([], (pc, s))
  | S k => match nth_error prog pc with
           | None => ([False], (pc, s))
           | Some i =>
               let '(o, (pc, s)) := xstepT n lhs rhs i pc s in
               let '(os, r) := xrun k n lhs rhs prog pc s in (o ++ os, r)
           end
  end.
Lemma xrun_sound k n lhs rhs prog pc s os r : xrun k n lhs rhs prog pc s = (os, r) -> all_of os ->
  xsteps k n lhs rhs prog pc s = Some r.
Proof.
  revert pc s os r. induction k as [|k IH]; intros pc s os r H A.
  - cbn in *. now injection H as _ <-.
  - cbn [xrun xsteps] in *. destruct (nth_error prog pc) as [i|]; [|injection H as <- _; destruct A; tauto].
    destruct (xstepT n lhs rhs i pc s) as [o [pc' s']] eqn:E.
    destruct (xrun k n lhs rhs prog pc' s') as [os' r'] eqn:E'. injection H as <- <-.
    apply all_of_app in A. destruct A as [A1 A2].
    pose proof (xstepT_sound n lhs rhs i pc s) as S. rewrite E in S. cbn [fst snd] in S. rewrite (S A1). cbn [bind fst snd].
    eapply IH; eassumption.
Qed.
Lemma t_zx_ok n m a f : (forall j, 0 <= j < 2 * Z.of_nat n -> m (a + j) = Some (f j)) ->
  v_pmovzxbw n m a <> None /\ t_zx n m a = wide n f.
Proof. intros H. unfold t_zx. rewrite (v_pmovzxbw_ok n m a f H). split; [discriminate|reflexivity]. Qed.
