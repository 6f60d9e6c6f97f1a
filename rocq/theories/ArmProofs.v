(* ArmProofs.v: lanes of the NEON instructions; blocks of instructions *)
From Verif Require Import Base BaseLemmas SimdModel SimdProofs X86Model X86Proofs ArmModel ArmKernels.

Lemma udot_words_ok : map udot_of_word dotprod_words =
  map Some (filter (fun i => match i with NUdot _ _ _ _ => true | _ => false end) NEON_64_Kernel12x8Depth4_dotprod_asm).
Proof. vm_compute. reflexivity. Qed.

(* ------------------------------------------------------------------ *)
(* lanes *)
Lemma getU_vpack n w f i : 1 <= w -> 0 <= i < Z.of_nat n -> getU w i (vpack n w f) = wrapU w (f i).
Proof. intros Hw Hi. rewrite getU_get by lia. rewrite get_vpack by lia. unfold wrapU. now apply wrapS_mod. Qed.
Lemma get_getU w i v : 1 <= w -> get w i v = wrapS w (getU w i v).
Proof. intros Hw. rewrite getU_get by lia. rewrite wrapS_wrapU by lia. symmetry. now apply wrapS_get. Qed.
Lemma getU_range w i v : 0 <= w -> 0 <= getU w i v < 2 ^ w.
Proof. intros Hw. unfold getU, wrapU. apply Z.mod_pos_bound. lia. Qed.
Lemma getU_ext w i v i' v' : 1 <= w -> 0 <= i -> 0 <= i' ->
  (forall j, 0 <= j < w -> Z.testbit v (w * i + j) = Z.testbit v' (w * i' + j)) -> getU w i v = getU w i' v'.
Proof.
  intros Hw Hi Hi' H. rewrite !getU_get by lia. f_equal. rewrite <- (wrapS_get w i' v') by lia.
  rewrite <- (wrapS_get w i v) by lia. apply wrapS_ext; [lia|]. intros j Hj. rewrite !get_bits by lia. now apply H.
Qed.
Lemma wrapU_byte x : 0 <= x < 256 -> wrapU 8 x = x.
Proof. intros H. unfold wrapU. change (2 ^ 8) with 256. now apply Z.mod_small. Qed.
Lemma get_0 w i : 1 <= w -> get w i 0 = 0.
Proof. intros Hw. unfold get. rewrite Z.shiftr_0_l. apply wrapS_small; [lia|]. unfold int_min, int_max. assert (0 < 2 ^ (w - 1)) by lia. lia. Qed.

Lemma gu_movl n h i : 0 <= i < 8 -> getU 16 i (v_movl n h) = getU 8 (8 * h + i) n.
Proof.
  intros Hi. unfold v_movl. rewrite getU_vpack by lia. pose proof (getU_range 8 (8 * h + i) n ltac:(lia)).
  unfold wrapU. change (2 ^ 8) with 256 in *. change (2 ^ 16) with 65536. apply Z.mod_small. lia.
Qed.
Lemma g_mlal16 d n h m idx i : 0 <= i < 4 ->
  get 32 i (v_mlal16 d n h m idx) = wrapS 32 (get 32 i d + getU 16 (4 * h + i) n * getU 16 idx m).
Proof. intros Hi. unfold v_mlal16. now rewrite get_vpack by lia. Qed.
Lemma g_mull8 n hn m hm i : 0 <= i < 8 ->
  get 16 i (v_mull8 n hn m hm) = wrapS 16 (get 8 (8 * hn + i) n * get 8 (8 * hm + i) m).
Proof. intros Hi. unfold v_mull8. now rewrite get_vpack by lia. Qed.
Lemma g_mlal8 d n hn m hm i : 0 <= i < 8 ->
  get 16 i (v_mlal8 d n hn m hm) = wrapS 16 (get 16 i d + get 8 (8 * hn + i) n * get 8 (8 * hm + i) m).
Proof. intros Hi. unfold v_mlal8. now rewrite get_vpack by lia. Qed.
Lemma g_mlalu8 d n hn m hm i : 0 <= i < 8 ->
  get 16 i (v_mlalu8 d n hn m hm) = wrapS 16 (get 16 i d + getU 8 (8 * hn + i) n * getU 8 (8 * hm + i) m).
Proof. intros Hi. unfold v_mlalu8. now rewrite get_vpack by lia. Qed.
Lemma g_padal d n i : 0 <= i < 4 ->
  get 32 i (v_padal d n) = wrapS 32 (get 32 i d + (get 16 (2 * i) n + get 16 (2 * i + 1) n)).
Proof. intros Hi. unfold v_padal. now rewrite get_vpack by lia. Qed.
Lemma g_padalu d n i : 0 <= i < 4 ->
  get 32 i (v_padalu d n) = wrapS 32 (get 32 i d + (getU 16 (2 * i) n + getU 16 (2 * i + 1) n)).
Proof. intros Hi. unfold v_padalu. now rewrite get_vpack by lia. Qed.
Lemma g_addp n m i : 0 <= i < 4 ->
  get 32 i (v_addp n m) = wrapS 32 (if i <? 2 then get 32 (2 * i) n + get 32 (2 * i + 1) n
                                    else get 32 (2 * i - 4) m + get 32 (2 * i - 3) m).
Proof. intros Hi. unfold v_addp. now rewrite get_vpack by lia. Qed.
Lemma g_paddD d h n hn m hm i : 0 <= i < 4 ->
  get 32 i (v_paddD d h n hn m hm) =
  wrapS 32 (if i =? 2 * h then get 32 (2 * hn) n + get 32 (2 * hn + 1) n
            else if i =? 2 * h + 1 then get 32 (2 * hm) m + get 32 (2 * hm + 1) m else get 32 i d).
Proof. intros Hi. unfold v_paddD. now rewrite get_vpack by lia. Qed.
Lemma g_udot d n m idx i : 0 <= i < 4 ->
  get 32 i (v_udot d n m idx) = wrapS 32 (get 32 i d
    + (getU 8 (4 * i) n * getU 8 (4 * idx) m + getU 8 (4 * i + 1) n * getU 8 (4 * idx + 1) m
       + getU 8 (4 * i + 2) n * getU 8 (4 * idx + 2) m + getU 8 (4 * i + 3) n * getU 8 (4 * idx + 3) m)).
Proof. intros Hi. unfold v_udot. now rewrite get_vpack by lia. Qed.

(* the bytes of half h are those of f *)
Definition isb (x : reg) (h : Z) (f : Z -> Z) : Prop := forall j, 0 <= j < 8 -> getU 8 (8 * h + j) x = f j.
Definition bytes_of (n : nat) (f : Z -> Z) : list Z := map (fun i => f (Z.of_nat i)) (seq 0 n).
Lemma isb_set8 z d h f : h = 0 \/ h = 1 -> (forall j, 0 <= j < 8 -> 0 <= f j < 256) ->
  isb (v_set8 z d h (bytes_of 8 f)) h f.
Proof.
  intros Hh B j Hj. unfold v_set8. rewrite getU_vpack by (destruct Hh; lia).
  replace ((8 * h + j) / 8 =? h) with true by (destruct Hh; lia).
  replace ((8 * h + j) mod 8) with j by (destruct Hh; lia). unfold bytes_of. rewrite nth_map_seq by lia.
  apply wrapU_byte. now apply B.
Qed.
Lemma isb_set8_other d h f k l : h = 0 \/ h = 1 -> k = 1 - h -> isb d h f -> isb (v_set8 false d k l) h f.
Proof.
  intros Hh -> H j Hj. unfold v_set8. rewrite getU_vpack by (destruct Hh; lia).
  replace ((8 * h + j) / 8 =? 1 - h) with false by (destruct Hh; lia).
  rewrite <- (H j Hj). unfold wrapU. rewrite (getU_get 8 _ d) by lia. reflexivity.
Qed.
Lemma isb_vec16 f h : h = 0 \/ h = 1 -> (forall j, 0 <= j < 16 -> 0 <= f j < 256) ->
  isb (vec_of 16 8 (bytes_of 16 f)) h (fun j => f (8 * h + j)).
Proof.
  intros Hh B j Hj. unfold vec_of. rewrite getU_vpack by (destruct Hh; lia). unfold bytes_of.
  rewrite nth_map_seq by (destruct Hh; lia). apply wrapU_byte. apply B. destruct Hh; lia.
Qed.
Lemma isb_ext x h f g : (forall j, 0 <= j < 8 -> f j = g j) -> isb x h f -> isb x h g.
Proof. intros E H j Hj. rewrite <- E by lia. now apply H. Qed.
(* words of the high half are untouched by a load into the low half *)
Lemma gu16_set8_hi d l i : 0 <= i < 4 -> getU 16 (4 + i) (v_set8 false d 0 l) = getU 16 (4 + i) d.
Proof.
  intros Hi. apply getU_ext; [lia|lia|lia|]. intros j Hj. unfold v_set8, vpack.
  replace (16 * (4 + i) + j) with (8 * (8 + 2 * i + j / 8) + j mod 8) by lia.
  rewrite pack_n_bits by lia. replace ((8 + 2 * i + j / 8) / 8 =? 0) with false by lia.
  rewrite get_bits by lia. f_equal.
Qed.

(* ------------------------------------------------------------------ *)
(* k instructions *)
Fixpoint asteps (k : nat) (lhs rhs : mem) (prog : list aop) (pc : nat) (s : astate) : option (nat * astate) :=
  match k with
  | O => Some (pc, s)
  | S k => match nth_error prog pc with
           | None => None
           | Some i => let* ps := astep lhs rhs i pc s in asteps k lhs rhs prog (fst ps) (snd ps)
           end
  end.
Lemma aexec_steps k f lhs rhs prog pc s pc' s' : asteps k lhs rhs prog pc s = Some (pc', s') ->
  aexec (k + f) lhs rhs prog pc s = aexec f lhs rhs prog pc' s'.
Proof.
  revert pc s. induction k as [|k IH]; intros pc s H.
  - cbn [asteps] in H. injection H as -> ->. reflexivity.
  - cbn [asteps] in H. cbn [Nat.add aexec]. destruct (nth_error prog pc) as [i|]; [|discriminate].
    destruct (astep lhs rhs i pc s) as [ps|]; [|discriminate]. cbn [bind] in *. now apply IH.
Qed.
Lemma aexec_end f lhs rhs prog s : aexec f lhs rhs prog (length prog) s = Some s.
Proof.
  assert (E : nth_error prog (length prog) = None) by now apply nth_error_None.
  destruct f; cbn [aexec]; now rewrite E.
Qed.
Lemma asteps_app k1 k2 lhs rhs prog pc s pc' s' : asteps k1 lhs rhs prog pc s = Some (pc', s') ->
  asteps (k1 + k2) lhs rhs prog pc s = asteps k2 lhs rhs prog pc' s'.
Proof.
  revert pc s. induction k1 as [|k IH]; intros pc s H.
  - cbn [asteps] in H. injection H as -> ->. reflexivity.
  - cbn [Nat.add asteps] in *. destruct (nth_error prog pc); [|discriminate].
    destruct (astep lhs rhs a pc s) as [ps|]; [|discriminate]. cbn [bind] in *. now apply IH.
Qed.

(* total version of one instruction, with the conditions under which it agrees *)
Definition t_cells (m : mem) (a : Z) (n : nat) : list Z := match load_cells m a n with Some l => l | None => [] end.
Definition t_load8w (m : mem) (a : Z) : list Z := match load8w m a with Some l => l | None => [] end.
Definition t_store8w (m : mem) (a : Z) (l : list Z) : mem := match store8w m a l with Some m' => m' | None => m end.
Definition astepT (lhs rhs : mem) (i : aop) (pc : nat) (s : astate) : list Prop * (nat * astate) :=
  let g := as_g s in
  let v := avget s in
  let blk b := match b with ALhs => lhs | _ => rhs end in
  match i with
  | NLd8 z d h b disp post =>
      ([load_cells (blk b) (aget g b + disp) 8 <> None],
       (S pc, agset (avset s d (v_set8 z (v d) h (t_cells (blk b) (aget g b + disp) 8))) b (aget g b + post)))
  | NLd16 d b post =>
      ([load_cells (blk b) (aget g b) 16 <> None],
       (S pc, agset (avset s d (vec_of 16 8 (t_cells (blk b) (aget g b) 16))) b (aget g b + post)))
  | NLdW sp d b post =>
      ([v_load 4 (amem s sp) (aget g b) <> None],
       (S pc, agset (avset s d (t_load 4 (amem s sp) (aget g b))) b (aget g b + aoff_of g post)))
  | NStW sp r b post =>
      ([v_store 4 (amem s sp) (aget g b) (v r) <> None],
       (S pc, agset (amset s sp (t_store 4 (amem s sp) (aget g b) (v r))) b (aget g b + aoff_of g post)))
  | NLd4 h d0 d1 d2 d3 b post =>
      let l := t_load8w (as_loc s) (aget g b) in
      let s := avset s d0 (v_put2 (v d0) h (nth 0 l 0) (nth 4 l 0)) in
      let s := avset s d1 (v_put2 (v d1) h (nth 1 l 0) (nth 5 l 0)) in
      let s := avset s d2 (v_put2 (v d2) h (nth 2 l 0) (nth 6 l 0)) in
      let s := avset s d3 (v_put2 (v d3) h (nth 3 l 0) (nth 7 l 0)) in
      ([load8w (as_loc s) (aget g b) <> None], (S pc, agset s b (aget g b + post)))
  | NSt4 h s0 s1 s2 s3 b post =>
      let l := v_words4 h (v s0) (v s1) (v s2) (v s3) in
      ([store8w (as_loc s) (aget g b) l <> None],
       (S pc, agset (amset s SLoc (t_store8w (as_loc s) (aget g b) l)) b (aget g b + post)))
  | NZero d => ([], (S pc, avset s d 0))
  | NMovQ d n => ([], (S pc, avset s d (v n)))
  | NMovl d n h => ([], (S pc, avset s d (v_movl (v n) h)))
  | NMlal16 d n h m idx => ([], (S pc, avset s d (v_mlal16 (v d) (v n) h (v m) idx)))
  | NMull8 d n hn m hm => ([], (S pc, avset s d (v_mull8 (v n) hn (v m) hm)))
  | NMlal8 d n hn m hm => ([], (S pc, avset s d (v_mlal8 (v d) (v n) hn (v m) hm)))
  | NMlalU8 d n hn m hm => ([], (S pc, avset s d (v_mlalu8 (v d) (v n) hn (v m) hm)))
  | NPadal d n => ([], (S pc, avset s d (v_padal (v d) (v n))))
  | NPadalU d n => ([], (S pc, avset s d (v_padalu (v d) (v n))))
  | NAddp d n m => ([], (S pc, avset s d (v_addp (v n) (v m))))
  | NPaddD d h n hn m hm => ([], (S pc, avset s d (v_paddD (v d) h (v n) hn (v m) hm)))
  | NAddQ d n m => ([], (S pc, avset s d (v_paddd 4 (v n) (v m))))
  | NUdot d n m idx => ([], (S pc, avset s d (v_udot (v d) (v n) (v m) idx)))
  | NRot8 d h imm => ([], (S pc, avset s d (v_rot8 (v d) h imm)))
  | NRot32 d imm => ([], (S pc, avset s d (v_rot32 (v d) imm)))
  | NTrn a b => ([], (S pc, avset (avset s a (v_trn1 (v a) (v b))) b (v_trn2 (v a) (v b))))
  | NSwp a ha b hb => ([], (S pc, avset (avset s a (v_put (v a) ha (v b) hb)) b (v_put (v b) hb (v a) ha)))
  | AMov d x => ([], (S pc, agset s d (aget g x)))
  | AMovI d imm => ([], (S pc, agset s d imm))
  | AAdd d x o => ([], (S pc, agset s d (aget g x + aoff_of g o)))
  | ASub d x imm => ([], (S pc, agset s d (aget g x - imm)))
  | ASubs d x imm =>
      ([], (S pc, afset (agset s d (aget g x - imm)) (mk_af (aget g x - imm =? 0) (imm <=? aget g x))))
  | ACmp x imm => ([], (S pc, afset s (mk_af (aget g x - imm =? 0) (imm <=? aget g x))))
  | ALsl d x imm => ([], (S pc, agset s d (aget g x * 2 ^ imm)))
  | AMul d x => ([], (S pc, agset s d (aget g d * aget g x)))
  | ABr c t => ([], (if acond_holds c (as_f s) then t else S pc, s))
  end.
Lemma astepT_sound lhs rhs i pc s : all_of (fst (astepT lhs rhs i pc s)) ->
  astep lhs rhs i pc s = Some (snd (astepT lhs rhs i pc s)).
Proof.
  destruct i; cbn [astepT astep fst snd all_of]; cbv zeta; intros H; try reflexivity; destruct H as [H _].
  - unfold t_cells. destruct (load_cells _ _ _); [reflexivity|tauto].
  - unfold t_cells. destruct (load_cells _ _ _); [reflexivity|tauto].
  - unfold t_load. destruct (v_load _ _ _); [reflexivity|tauto].
  - unfold t_store. destruct (v_store _ _ _); [reflexivity|tauto].
  - unfold t_load8w. cbn [as_loc avset] in H. destruct (load8w _ _); [reflexivity|tauto].
  - unfold t_store8w. destruct (store8w _ _ _); [reflexivity|tauto].
Qed.
Fixpoint arun (k : nat) (lhs rhs : mem) (prog : list aop) (pc : nat) (s : astate) : list Prop * (nat * astate) :=
  match k with
  | O => ([], (pc, s))
  | S k => match nth_error prog pc with
           | None => ([False], (pc, s))
           | Some i =>
               let '(o, (pc, s)) := astepT lhs rhs i pc s in
               let '(os, r) := arun k lhs rhs prog pc s in (o ++ os, r)
           end
  end.
Lemma arun_sound k lhs rhs prog pc s os r : arun k lhs rhs prog pc s = (os, r) -> all_of os ->
  asteps k lhs rhs prog pc s = Some r.
Proof.
  revert pc s os r. induction k as [|k IH]; intros pc s os r H A.
  - cbn in *. now injection H as _ <-.
  - cbn [arun asteps] in *. destruct (nth_error prog pc) as [i|]; [|injection H as <- _; destruct A; tauto].
    destruct (astepT lhs rhs i pc s) as [o [pc' s']] eqn:E.
    destruct (arun k lhs rhs prog pc' s') as [os' r'] eqn:E'. injection H as <- <-.
    apply all_of_app in A. destruct A as [A1 A2].
    pose proof (astepT_sound lhs rhs i pc s) as S. rewrite E in S. cbn [fst snd] in S. rewrite (S A1). cbn [bind fst snd].
    eapply IH; eassumption.
Qed.
Lemma t_cells_ok m a n f : (forall j, 0 <= j < Z.of_nat n -> m (a + j) = Some (f j)) ->
  load_cells m a n <> None /\ t_cells m a n = bytes_of n f.
Proof. intros H. unfold t_cells. rewrite (load_cells_ok m a n f H). split; [discriminate|reflexivity]. Qed.
