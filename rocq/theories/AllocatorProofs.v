From Verif Require Import Base BaseLemmas CommonModel AllocatorModel AllocatorSpec.

Lemma padded_ge b : 0 <= b -> b <= padded b < b + 64.
Proof. unfold padded. intros. lia. Qed.
Lemma padded_div b : (64 | padded b).
Proof. exists ((b + 63) / 64). unfold padded. lia. Qed.
Lemma type_size_pos t : 1 <= type_size t <= 4.
Proof. destruct t; cbn; lia. Qed.

Lemma modest_bytes t n : modest t n -> 0 <= n * type_size t <= 2 ^ 60.
Proof. intros [H1 H2]. pose proof (type_size_pos t). split; [nia|exact H2]. Qed.

Lemma RoundUp64_eq b : 0 <= b -> b + 64 < 2 ^ 64 -> RoundUp64 kAlignment b = padded b.
Proof.
  intros H1 H2. unfold RoundUp64, kAlignment, wrapU.
  rewrite (Z.mod_small (b + 64)) by lia. rewrite (Z.mod_small (b + 64 - 1)) by lia.
  pose proof (padded_ge b H1).
  assert (E : b + 64 - 1 - (b + 64 - 1) mod 64 = padded b) by (unfold padded; lia).
  rewrite E. apply Z.mod_small. lia.
Qed.

Lemma lor_shiftr_range i s N : 0 <= s -> 0 <= N -> 0 <= i < 2 ^ N ->
  i <= Z.lor i (Z.shiftr i s) < 2 ^ N.
Proof.
  intros Hs HN Hi.
  assert (Hr : 0 <= Z.shiftr i s) by (apply Z.shiftr_nonneg; lia).
  assert (Hr2 : Z.shiftr i s <= i).
  { rewrite Z.shiftr_div_pow2 by lia. pose proof (Z.pow_pos_nonneg 2 s ltac:(lia) Hs).
    apply Z.div_le_upper_bound; nia. }
  split.
  - assert (H : Z.land i (Z.lor i (Z.shiftr i s)) = i).
    { rewrite Z.land_lor_distr_r, Z.land_diag. apply Z.bits_inj'. intros b Hb.
      rewrite Z.lor_spec, Z.land_spec. destruct (Z.testbit i b), (Z.testbit (Z.shiftr i s) b); reflexivity. }
    assert (N0 : 0 <= Z.lor i (Z.shiftr i s)) by (apply Z.lor_nonneg; lia).
    assert (Hd : Z.ldiff (Z.lor i (Z.shiftr i s)) i = Z.lor i (Z.shiftr i s) - i).
    { symmetry. apply Z.sub_nocarry_ldiff. apply Z.bits_inj'. intros b Hb.
      rewrite Z.ldiff_spec, Z.lor_spec, Z.bits_0. destruct (Z.testbit i b), (Z.testbit (Z.shiftr i s) b); reflexivity. }
    assert (0 <= Z.ldiff (Z.lor i (Z.shiftr i s)) i) by (apply Z.ldiff_nonneg; lia). lia.
  - destruct (Z.eq_dec i 0) as [->|Hz].
    + rewrite Z.shiftr_0_l. cbn. lia.
    + assert (0 < Z.lor i (Z.shiftr i s)).
      { assert (0 <= Z.lor i (Z.shiftr i s)) by (apply Z.lor_nonneg; lia).
        assert (Z.lor i (Z.shiftr i s) <> 0) by (intros E; apply Z.lor_eq_0_iff in E; lia). lia. }
      apply Z.log2_lt_pow2; [lia|]. rewrite Z.log2_lor by lia.
      apply Z.max_lub_lt; [apply Z.log2_lt_pow2; lia|].
      destruct (Z.eq_dec (Z.shiftr i s) 0) as [E|E].
      * rewrite E. cbn. destruct (Z.eq_dec N 0) as [->|]; [cbn in Hi; lia|lia].
      * apply Z.log2_lt_pow2; lia.
Qed.

Lemma RoundUpToPowerOfTwo_ge n : 1 <= n <= 2 ^ 63 -> n <= RoundUpToPowerOfTwo 64 n <= 2 ^ 63.
Proof.
  intros Hn. unfold RoundUpToPowerOfTwo, wrapU.
  rewrite (Z.mod_small (n - 1)) by lia.
  set (i0 := n - 1).
  pose proof (lor_shiftr_range i0 1 63 ltac:(lia) ltac:(lia) ltac:(unfold i0; lia)) as H1.
  set (i1 := Z.lor i0 (Z.shiftr i0 1)) in *.
  assert (R0 : 0 <= i0) by (unfold i0; lia).
  pose proof (lor_shiftr_range i1 2 63 ltac:(lia) ltac:(lia) ltac:(lia)) as H2.
  set (i2 := Z.lor i1 (Z.shiftr i1 2)) in *.
  pose proof (lor_shiftr_range i2 4 63 ltac:(lia) ltac:(lia) ltac:(lia)) as H3.
  set (i3 := Z.lor i2 (Z.shiftr i2 4)) in *.
  pose proof (lor_shiftr_range i3 8 63 ltac:(lia) ltac:(lia) ltac:(lia)) as H4.
  set (i4 := Z.lor i3 (Z.shiftr i3 8)) in *.
  pose proof (lor_shiftr_range i4 16 63 ltac:(lia) ltac:(lia) ltac:(lia)) as H5.
  set (i5 := Z.lor i4 (Z.shiftr i4 16)) in *.
  rewrite Z.mod_small by lia. unfold i0 in *. lia.
Qed.

(* ---- offsets of consecutive reservations ---- *)
Fixpoint offs (start : Z) (reqs : list (type_id * Z)) : list Z :=
  match reqs with [] => [] | (t, n) :: rest => start :: offs (start + padded (n * type_size t)) rest end.

Lemma room_app l1 l2 : room (l1 ++ l2) = room l1 + room l2.
Proof. induction l1 as [|[t n] l IH]; [reflexivity|]. cbn [app room]. rewrite IH. lia. Qed.
Lemma offs_app l1 l2 s : offs s (l1 ++ l2) = offs s l1 ++ offs (s + room l1) l2.
Proof.
  revert s. induction l1 as [|[t n] l IH]; intros s.
  - cbn [app offs room]. rewrite Z.add_0_r. reflexivity.
  - cbn [app offs room]. rewrite IH. do 3 f_equal. lia.
Qed.
Lemma offs_length l s : length (offs s l) = length l.
Proof. revert s. induction l as [|[t n] l IH]; intros s; [reflexivity|]. cbn. rewrite IH. reflexivity. Qed.

Definition sound_reqs (l : list (type_id * Z)) : Prop := Forall (fun r => modest (fst r) (snd r)) l.

Lemma room_bound l : sound_reqs l -> 0 <= room l <= Z.of_nat (length l) * (2 ^ 60 + 64).
Proof.
  induction l as [|[t n] l IH]; intros H; [cbn; lia|]. inversion H as [|x y H1 H2]; subst.
  specialize (IH H2). pose proof (modest_bytes _ _ H1) as Hb. cbn [fst snd] in Hb.
  pose proof (padded_ge (n * type_size t) ltac:(lia)).
  cbn [room length]. lia.
Qed.
Lemma room_div l : (64 | room l).
Proof.
  induction l as [|[t n] l IH]; [exists 0; reflexivity|]. cbn [room]. apply Z.divide_add_r; [apply padded_div|exact IH].
Qed.

Lemma offs_nth l s i t n : sound_reqs l -> nth_error l i = Some (t, n) ->
  exists o, nth_error (offs s l) i = Some o /\ s <= o /\ o + n * type_size t <= s + room l /\ (64 | o - s).
Proof.
  revert s i. induction l as [|[u m] l IH]; intros s i H E; [destruct i; discriminate|].
  inversion H as [|x y H1 H2]; subst. pose proof (modest_bytes _ _ H1) as Hb. cbn [fst snd] in Hb.
  pose proof (padded_ge (m * type_size u) ltac:(lia)) as Hp.
  pose proof (room_bound l H2) as Hr.
  destruct i as [|i].
  - injection E as -> ->. exists s. cbn [offs nth_error room]. repeat split; try lia. exists 0. lia.
  - cbn [nth_error] in E. destruct (IH (s + padded (m * type_size u)) i H2 E) as [o [E1 [E2 [E3 E4]]]].
    exists o. cbn [offs nth_error room]. split; [exact E1|]. split; [lia|]. split; [lia|].
    replace (o - s) with ((o - (s + padded (m * type_size u))) + padded (m * type_size u)) by lia.
    apply Z.divide_add_r; [exact E4|apply padded_div].
Qed.

Lemma offs_order l s i j t n o o' : sound_reqs l -> (i < j)%nat -> nth_error l i = Some (t, n) ->
  nth_error (offs s l) i = Some o -> nth_error (offs s l) j = Some o' -> o + n * type_size t <= o'.
Proof.
  revert s i j. induction l as [|[u m] l IH]; intros s i j H Hij E Ei Ej; [destruct i; discriminate|].
  inversion H as [|x y H1 H2]; subst. pose proof (modest_bytes _ _ H1) as Hb. cbn [fst snd] in Hb.
  pose proof (padded_ge (m * type_size u) ltac:(lia)) as Hp.
  destruct j as [|j]; [lia|]. cbn [offs nth_error] in Ej.
  destruct i as [|i].
  - injection E as -> ->. cbn [offs nth_error] in Ei. injection Ei as <-.
    assert (Hj : exists r, nth_error l j = Some r).
    { destruct (nth_error l j) eqn:Ej2; [eexists; reflexivity|].
      apply nth_error_None in Ej2. assert (nth_error (offs (s + padded (n * type_size t)) l) j <> None) by congruence.
      apply nth_error_Some in H0. rewrite offs_length in H0. lia. }
    destruct Hj as [[t' n'] Hj].
    destruct (offs_nth l (s + padded (n * type_size t)) j t' n' H2 Hj) as [o2 [F1 [F2 _]]].
    rewrite F1 in Ej. injection Ej as <-. lia.
  - cbn [offs nth_error] in Ei, E. apply (IH _ i j H2 ltac:(lia) E Ei Ej).
Qed.

(* ---- the invariant ---- *)
Record inv (live : list grant) (stale : list handle) (k : Z) (a : alloc) : Prop := mk_inv {
  inv_k : 0 <= k;
  inv_gen : a_generation a = wrapU 64 k;
  inv_reqs : sound_reqs (requests live);
  inv_len : (length live <= 5)%nat;
  inv_offs : a_offsets a = offs 0 (requests live);
  inv_bytes : a_bytes a = room (requests live);
  inv_size : 0 <= a_size a;
  inv_storage : (64 | a_storage a) /\ 0 <= a_storage a /\ a_storage a + a_size a < 2 ^ 64;
  inv_held : a_size a = 0 \/ a_storage a <> 0;
  inv_comm : a_committed a = true -> a_bytes a <= a_size a;
  inv_live : forall i h t n, nth_error live i = Some (h, t, n) ->
               h = mk_handle (Z.of_nat i) (a_generation a) t;
  inv_stale : forall h, In h stale -> exists g, 0 <= g < k /\ h_generation h = wrapU 64 g }.

Lemma requests_length live : length (requests live) = length live.
Proof. apply map_length. Qed.
Lemma inv_bytes_bound live stale k a : inv live stale k a -> 0 <= a_bytes a <= 5 * (2 ^ 60 + 64).
Proof.
  intros I. pose proof (room_bound _ (inv_reqs _ _ _ _ I)) as H. rewrite (inv_bytes _ _ _ _ I).
  rewrite requests_length in H. pose proof (inv_len _ _ _ _ I). lia.
Qed.
Lemma inv_blocks live stale k a : inv live stale k a -> length (a_offsets a) = length live.
Proof.
  intros I. rewrite (inv_offs _ _ _ _ I), offs_length. unfold requests. apply map_length.
Qed.

Lemma Reserve_inv live stale k a t n h a' : inv live stale k a -> modest t n ->
  Reserve t n a = Some (h, a') -> inv (live ++ [(h, t, n)]) stale k a'.
Proof.
  intros I Hm E. unfold Reserve in E.
  destruct (a_committed a) eqn:Ec; [discriminate|]. cbn [negb guard bind] in E.
  destruct (Z.of_nat (length (a_offsets a)) <? kMaxBlocks) eqn:El; [|discriminate]. cbn [guard bind] in E.
  injection E as <- <-. pose proof (inv_blocks _ _ _ _ I) as HL. rewrite HL in *.
  unfold kMaxBlocks in El. pose proof (modest_bytes _ _ Hm) as Hb.
  pose proof (inv_bytes_bound _ _ _ _ I) as HB.
  pose proof (padded_ge (n * type_size t) ltac:(lia)) as Hp.
  assert (W : wrapU 64 (a_bytes a + RoundUp64 kAlignment (wrapU 64 (n * type_size t))) =
              a_bytes a + padded (n * type_size t)).
  { unfold wrapU at 2. rewrite (Z.mod_small (n * type_size t)) by lia. rewrite RoundUp64_eq by lia.
    unfold wrapU. apply Z.mod_small. lia. }
  assert (W8 : wrapU 8 (Z.of_nat (length live)) = Z.of_nat (length live)).
  { unfold wrapU. apply Z.mod_small. lia. }
  assert (RQ : requests (live ++ [(mk_handle (wrapU 8 (Z.of_nat (length live))) (a_generation a) t, t, n)]) =
               requests live ++ [(t, n)]).
  { unfold requests. rewrite map_app. reflexivity. }
  destruct I. constructor; cbn [a_generation a_offsets a_bytes a_size a_storage a_committed].
  - assumption.
  - assumption.
  - rewrite RQ. apply Forall_app. split; [assumption|]. constructor; [exact Hm|constructor].
  - rewrite app_length. cbn [length]. lia.
  - rewrite RQ, offs_app, inv_offs0, inv_bytes0. cbn [offs]. reflexivity.
  - rewrite RQ, room_app, W, inv_bytes0. cbn [room]. lia.
  - assumption.
  - assumption.
  - assumption.
  - congruence.
  - intros i h t0 n0 E. destruct (Nat.lt_ge_cases i (length live)) as [L|L].
    + rewrite nth_error_app1 in E by lia. apply (inv_live0 _ _ _ _ E).
    + rewrite nth_error_app2 in E by lia. destruct (i - length live)%nat as [|r] eqn:Er.
      * injection E as <- <- <-. rewrite W8. f_equal. lia.
      * cbn in E. destruct r; discriminate.
  - assumption.
Qed.

Lemma Commit_inv live stale k a os a' : inv live stale k a -> os_sound os ->
  Commit os a = Some a' -> inv live stale k a' /\ a_size a <= a_size a' /\ a_committed a' = true.
Proof.
  intros I Ho E. unfold Commit in E. pose proof (inv_bytes_bound _ _ _ _ I) as HB.
  destruct (a_committed a) eqn:Ec; [discriminate|]. cbn [negb guard bind] in E.
  destruct (a_bytes a >? a_size a) eqn:Eg.
  - pose proof (inv_size _ _ _ _ I) as Hs.
    pose proof (RoundUpToPowerOfTwo_ge (a_bytes a) ltac:(lia)) as HR.
    set (size := RoundUpToPowerOfTwo 64 (a_bytes a)) in *.
    destruct ((size =? 0) || negb (os size =? 0)) eqn:Ef; [|discriminate]. cbn [guard bind] in E.
    injection E as <-.
    destruct (Ho size ltac:(lia)) as [Z0|[P1 [P2 P3]]]; [lia|].
    split; [|split; [cbn; lia|reflexivity]].
    destruct I. constructor; cbn [a_generation a_offsets a_bytes a_size a_storage a_committed]; auto; try lia.
    split; [exact P2|]. lia.
  - destruct ((a_size a =? 0) || negb (a_storage a =? 0)) eqn:Ef; [|discriminate]. cbn [guard bind] in E.
    injection E as <-. split; [|split; [cbn; lia|reflexivity]].
    destruct I. constructor; cbn [a_generation a_offsets a_bytes a_size a_storage a_committed]; auto; lia.
Qed.

Lemma Decommit_inv live stale k a a' : inv live stale k a -> Decommit a = Some a' ->
  inv [] (map (fun g => fst (fst g)) live ++ stale) (k + 1) a'.
Proof.
  intros I E. unfold Decommit in E. destruct (a_committed a) eqn:Ec; [|discriminate]. cbn [guard bind] in E.
  injection E as <-. destruct I.
  constructor; cbn [a_generation a_offsets a_bytes a_size a_storage a_committed requests map room offs length]; auto; try lia.
  - rewrite inv_gen0. unfold wrapU. rewrite Zplus_mod_idemp_l. reflexivity.
  - constructor.
  - intros i h t n E. destruct i; discriminate.
  - intros h Hin. apply in_app_or in Hin. destruct Hin as [Hin|Hin].
    + apply in_map_iff in Hin. destruct Hin as [[[h' t] n] [<- Hg]].
      apply In_nth_error in Hg. destruct Hg as [i Hi]. rewrite (inv_live0 _ _ _ _ Hi). cbn.
      exists k. split; [lia|exact inv_gen0].
    + destruct (inv_stale0 _ Hin) as [g [Hg1 Hg2]]. exists g. split; [lia|exact Hg2].
Qed.

Lemma history_inv live stale k a : history live stale k a -> inv live stale k a.
Proof.
  induction 1 as [|live stale k a t n h a' H IH Hm E|live stale k a os a' H IH Ho E|live stale k a a' H IH E].
  - constructor; cbn [new_alloc a_generation a_offsets a_bytes a_size a_storage a_committed requests map offs room length];
      try reflexivity; try lia; try discriminate.
    + constructor.
    + split; [exists 0; reflexivity|lia].
    + intros i h t n E. destruct i; discriminate.
    + intros h [].
  - exact (Reserve_inv _ _ _ _ _ _ _ _ IH Hm E).
  - exact (proj1 (Commit_inv _ _ _ _ _ _ IH Ho E)).
  - exact (Decommit_inv _ _ _ _ _ IH E).
Qed.

(* ---- C14 ---- *)
Lemma type_eqb_refl t : type_eqb t t = true.
Proof. destruct t; reflexivity. Qed.
Lemma type_eqb_eq a b : type_eqb a b = true -> a = b.
Proof. destruct a, b; cbn; congruence. Qed.

Lemma requests_nth live i h t n : nth_error live i = Some (h, t, n) -> nth_error (requests live) i = Some (t, n).
Proof. intros E. unfold requests. rewrite nth_error_map, E. reflexivity. Qed.

Lemma GetPointer_live live stale k a i h t n : inv live stale k a -> a_committed a = true ->
  nth_error live i = Some (h, t, n) ->
  exists o, nth_error (offs 0 (requests live)) i = Some o /\ GetPointer t h a = Some (a_storage a + o) /\
    0 <= o /\ o + n * type_size t <= a_size a /\ (64 | o).
Proof.
  intros I Ec E. pose proof (inv_bytes_bound _ _ _ _ I) as HB. pose proof (inv_blocks _ _ _ _ I) as HL.
  pose proof (inv_comm _ _ _ _ I Ec) as Hc. pose proof (inv_storage _ _ _ _ I) as [Hs1 [Hs2 Hs3]].
  destruct (offs_nth (requests live) 0 i t n (inv_reqs _ _ _ _ I) (requests_nth _ _ _ _ _ E)) as [o [E1 [E2 [E3 E4]]]].
  exists o. split; [exact E1|].
  rewrite Z.sub_0_r in E4. rewrite (inv_bytes _ _ _ _ I) in Hc.
  assert (Hreq : modest t n).
  { pose proof (inv_reqs _ _ _ _ I) as F. unfold sound_reqs in F. rewrite Forall_forall in F.
    apply (F (t, n)). apply nth_error_In with i. apply (requests_nth _ _ _ _ _ E). }
  pose proof (modest_bytes _ _ Hreq) as Hb.
  split; [|split; [lia|split; [lia|exact E4]]].
  unfold GetPointer. rewrite Ec. cbn [guard bind].
  pose proof (inv_live _ _ _ _ I _ _ _ _ E) as ->. cbn [h_index h_generation h_type].
  rewrite HL. assert (i < length live)%nat by (apply nth_error_Some; congruence).
  replace (Z.of_nat i <? Z.of_nat (length live)) with true by lia. cbn [guard bind].
  rewrite Z.eqb_refl, type_eqb_refl. cbn [guard bind]. rewrite Nat2Z.id, (inv_offs _ _ _ _ I), E1. cbn [bind].
  f_equal. unfold wrapU. apply Z.mod_small. lia.
Qed.

Definition addr_of (live : list grant) (a : alloc) (i : nat) : Z :=
  match nth_error (offs 0 (requests live)) i with Some o => a_storage a + o | None => 0 end.

Lemma laid_out_ok live stale k a : history live stale k a -> a_committed a = true ->
  laid_out a live (addr_of live a).
Proof.
  intros H Ec. apply history_inv in H. split.
  - intros i h t n E. destruct (GetPointer_live _ _ _ _ _ _ _ _ H Ec E) as [o [E1 [E2 [E3 [E4 E5]]]]].
    unfold addr_of. rewrite E1. split; [exact E2|]. split.
    + apply Z.divide_add_r; [exact (proj1 (inv_storage _ _ _ _ H))|exact E5].
    + unfold in_storage. lia.
  - intros i j h t n h' t' n' Hij Ei Ej.
    destruct (GetPointer_live _ _ _ _ _ _ _ _ H Ec Ei) as [o [E1 _]].
    destruct (GetPointer_live _ _ _ _ _ _ _ _ H Ec Ej) as [o' [F1 _]].
    unfold addr_of. rewrite E1, F1. unfold disjoint.
    destruct (Nat.lt_total i j) as [L|[L|L]]; [left|congruence|right].
    + pose proof (offs_order _ 0 i j t n o o' (inv_reqs _ _ _ _ H) L (requests_nth _ _ _ _ _ Ei) E1 F1). lia.
    + pose proof (offs_order _ 0 j i t' n' o' o (inv_reqs _ _ _ _ H) L (requests_nth _ _ _ _ _ Ej) F1 E1). lia.
Qed.

(* C14 *)
Theorem blocks_laid_out live stale k a : history live stale k a -> a_committed a = true ->
  exists addr, laid_out a live addr.
Proof. intros H Ec. exists (addr_of live a). exact (laid_out_ok _ _ _ _ H Ec). Qed.

Lemma Reserve_ok t n a : a_committed a = false -> (length (a_offsets a) < 5)%nat ->
  exists h a', Reserve t n a = Some (h, a') /\ a_committed a' = false /\ length (a_offsets a') = S (length (a_offsets a)).
Proof.
  intros Ec HL. unfold Reserve. rewrite Ec. cbn [negb guard bind].
  unfold kMaxBlocks. replace (Z.of_nat (length (a_offsets a)) <? 5) with true by lia. cbn [guard bind].
  do 2 eexists. split; [reflexivity|]. cbn [a_committed a_offsets]. split; [reflexivity|].
  rewrite app_length. cbn. lia.
Qed.

Lemma reserve_all_ok reqs : forall live stale k a,
  history live stale k a -> a_committed a = false -> (length live + length reqs <= 5)%nat ->
  sound_reqs reqs ->
  exists hs a', reserve_all reqs a = Some (hs, a') /\ a_committed a' = false /\
    length hs = length reqs /\ history (live ++ map (fun x => (fst x, fst (snd x), snd (snd x))) (combine hs reqs)) stale k a'.
Proof.
  induction reqs as [|[t n] reqs IH]; intros live stale k a H Ec HL HS.
  - exists [], a. cbn. rewrite app_nil_r. auto.
  - inversion HS as [|x y S1 S2]; subst. cbn [length] in HL.
    destruct (Reserve_ok t n a Ec) as [h [a1 [E [Ec1 _]]]].
    { rewrite (inv_blocks _ _ _ _ (history_inv _ _ _ _ H)). lia. }
    pose proof (hist_reserve _ _ _ _ _ _ _ _ H S1 E) as H1.
    destruct (IH _ _ _ _ H1 Ec1) as [hs [a2 [E2 [Ec2 [L2 H2]]]]]; [|exact S2|].
    { rewrite app_length. cbn [length]. lia. }
    exists (h :: hs), a2. cbn [reserve_all]. rewrite E. cbn [bind]. rewrite E2. cbn [bind].
    split; [reflexivity|]. split; [exact Ec2|]. split; [cbn; lia|].
    rewrite <- app_assoc in H2. exact H2.
Qed.

Lemma Commit_ok live stale k a os : history live stale k a -> a_committed a = false ->
  os_never_fails os (2 ^ 63) -> exists a', Commit os a = Some a'.
Proof.
  intros H Ec Ho. apply history_inv in H. pose proof (inv_bytes_bound _ _ _ _ H) as HB.
  unfold Commit. rewrite Ec. cbn [negb guard bind]. pose proof (inv_size _ _ _ _ H).
  destruct (a_bytes a >? a_size a) eqn:Eg.
  - pose proof (RoundUpToPowerOfTwo_ge (a_bytes a) ltac:(lia)) as HR.
    specialize (Ho (RoundUpToPowerOfTwo 64 (a_bytes a)) ltac:(lia)).
    replace (os (RoundUpToPowerOfTwo 64 (a_bytes a)) =? 0) with false by lia.
    rewrite orb_true_r. cbn [guard bind]. eexists. reflexivity.
  - destruct (inv_held _ _ _ _ H) as [X|X].
    + rewrite X. cbn [Z.eqb orb guard bind]. eexists. reflexivity.
    + replace (a_storage a =? 0) with false by lia. rewrite orb_true_r. cbn [guard bind]. eexists. reflexivity.
Qed.

(* reserving, committing and resolving at most five requests always works,
   whatever the allocator did before *)
Theorem request_session reqs live0 stale k a os :
  history live0 stale k a -> live0 = [] -> a_committed a = false -> (length reqs <= 5)%nat ->
  (forall t n, In (t, n) reqs -> modest t n) -> os_sound os -> os_never_fails os (2 ^ 63) ->
  exists hs a1 a2 addr, reserve_all reqs a = Some (hs, a1) /\ Commit os a1 = Some a2 /\
    length hs = length reqs /\ laid_out a2 (map (fun x => (fst x, fst (snd x), snd (snd x))) (combine hs reqs)) addr.
Proof.
  intros H -> Ec HL HS Hos Hnf.
  assert (HS' : sound_reqs reqs). { apply Forall_forall. intros [t n] Hin. exact (HS t n Hin). }
  destruct (reserve_all_ok reqs _ _ _ _ H Ec HL HS') as [hs [a1 [E1 [Ec1 [L1 H1]]]]].
  destruct (Commit_ok _ _ _ _ _ H1 Ec1 Hnf) as [a2 E2].
  pose proof (hist_commit _ _ _ _ _ _ H1 Hos E2) as H2.
  destruct (Commit_inv _ _ _ _ _ _ (history_inv _ _ _ _ H1) Hos E2) as [_ [_ Ec2]].
  exists hs, a1, a2, (addr_of ([] ++ map (fun x => (fst x, fst (snd x), snd (snd x))) (combine hs reqs)) a2).
  split; [exact E1|]. split; [exact E2|]. split; [exact L1|]. exact (laid_out_ok _ _ _ _ H2 Ec2).
Qed.

(* ---- C15 ---- *)
Theorem stale_rejected live stale k a h t : history live stale k a -> k < 2 ^ 64 -> In h stale ->
  GetPointer t h a = None.
Proof.
  intros H Hk Hin. apply history_inv in H. destruct (inv_stale _ _ _ _ H h Hin) as [g [Hg E]].
  unfold GetPointer. destruct (a_committed a); [|reflexivity]. cbn [guard bind].
  destruct (h_index h <? Z.of_nat (length (a_offsets a))); [|reflexivity]. cbn [guard bind].
  rewrite E, (inv_gen _ _ _ _ H). unfold wrapU. rewrite !Z.mod_small by lia.
  replace (g =? k) with false by lia. reflexivity.
Qed.

Theorem wrong_type_rejected live stale k a h t u n : history live stale k a ->
  In (h, t, n) live -> u <> t -> GetPointer u h a = None.
Proof.
  intros H Hin Hu. apply history_inv in H. apply In_nth_error in Hin. destruct Hin as [i Hi].
  rewrite (inv_live _ _ _ _ H _ _ _ _ Hi). unfold GetPointer. destruct (a_committed a); [|reflexivity]. cbn [guard bind].
  cbn [h_index h_generation h_type]. destruct (Z.of_nat i <? _); [|reflexivity]. cbn [guard bind].
  rewrite Z.eqb_refl. cbn [guard bind]. destruct (type_eqb t u) eqn:E; [|reflexivity].
  apply type_eqb_eq in E. congruence.
Qed.

(* a handle that resolves is one of the live ones of that type *)
Theorem only_live_resolve live stale k a t h p : history live stale k a ->
  In h stale \/ In h (map (fun g => fst (fst g)) live) -> k < 2 ^ 64 -> GetPointer t h a = Some p ->
  a_committed a = true /\ exists n, In (h, t, n) live.
Proof.
  intros H Hin Hk E. split.
  - unfold GetPointer in E. destruct (a_committed a); [reflexivity|discriminate].
  - destruct Hin as [Hin|Hin].
    + rewrite (stale_rejected _ _ _ _ _ t H Hk Hin) in E. discriminate.
    + apply in_map_iff in Hin. destruct Hin as [[[h' t'] n] [<- Hin]]. cbn [fst snd] in *.
      exists n. destruct (type_eqb t' t) eqn:ET.
      * apply type_eqb_eq in ET. subst. exact Hin.
      * rewrite (wrong_type_rejected _ _ _ _ h' t' t n H Hin) in E; [discriminate|].
        intros ->. rewrite type_eqb_refl in ET. discriminate.
Qed.

(* ---- storage ---- *)
Lemma later_history live stale k a b : history live stale k a -> later a b ->
  exists live' stale' k', history live' stale' k' b /\ a_size a <= a_size b.
Proof.
  intros H L. revert live stale k H.
  induction L as [a|a b t n h c L IH Hm E|a b os c L IH Ho E|a b c L IH E]; intros live stale k H.
  - exists live, stale, k. split; [exact H|lia].
  - destruct (IH _ _ _ H) as [l' [s' [k' [H' Hs]]]].
    exists (l' ++ [(h, t, n)]), s', k'. split; [exact (hist_reserve _ _ _ _ _ _ _ _ H' Hm E)|].
    unfold Reserve in E. destruct (negb (a_committed b)); [|discriminate]. cbn [guard bind] in E.
    destruct (_ <? kMaxBlocks); [|discriminate]. cbn [guard bind] in E. injection E as _ <-. exact Hs.
  - destruct (IH _ _ _ H) as [l' [s' [k' [H' Hs]]]].
    exists l', s', k'. split; [exact (hist_commit _ _ _ _ _ _ H' Ho E)|].
    destruct (Commit_inv _ _ _ _ _ _ (history_inv _ _ _ _ H') Ho E) as [_ [Hc _]]. lia.
  - destruct (IH _ _ _ H) as [l' [s' [k' [H' Hs]]]].
    exists [], (map (fun g => fst (fst g)) l' ++ s'), (k' + 1).
    split; [exact (hist_decommit _ _ _ _ _ H' E)|].
    unfold Decommit in E. destruct (a_committed b); [|discriminate]. cbn [guard bind] in E. injection E as <-. exact Hs.
Qed.

Theorem storage_never_shrinks live stale k a b : history live stale k a -> later a b -> a_size a <= a_size b.
Proof. intros H L. destruct (later_history _ _ _ _ _ H L) as [? [? [? [_ Hs]]]]. exact Hs. Qed.

(* a later commit of no more bytes asks for no memory: it succeeds even when
   the system has none left, and keeps the storage where it is *)
Theorem repeated_pattern_allocates_nothing live stale k a b live' stale' k' os :
  history live stale k a -> a_committed a = true -> later a b -> history live' stale' k' b ->
  a_committed b = false -> room (requests live') <= room (requests live) ->
  exists c, Commit os b = Some c /\ a_storage c = a_storage b /\ a_size c = a_size b.
Proof.
  intros H Ec L H' Eb HR. pose proof (storage_never_shrinks _ _ _ _ _ H L) as Hs.
  pose proof (history_inv _ _ _ _ H) as I. pose proof (history_inv _ _ _ _ H') as I'.
  pose proof (inv_comm _ _ _ _ I Ec) as Hc. rewrite (inv_bytes _ _ _ _ I) in Hc.
  unfold Commit. rewrite Eb. cbn [negb guard bind]. rewrite (inv_bytes _ _ _ _ I').
  replace (room (requests live') >? a_size b) with false by lia.
  replace ((a_size b =? 0) || negb (a_storage b =? 0)) with true
    by (destruct (inv_held _ _ _ _ I'); lia).
  cbn [guard bind]. eexists. split; [reflexivity|]. split; reflexivity.
Qed.

(* ---- the usage protocol ---- *)
Definition phase_ok (ops : list op) (a : alloc) (os : Z -> Z) : Prop :=
  exists a', apply_ops os ops a = Some a' /\ Destroy a' = Some tt.

Lemma apply_reserves os reqs : forall live stale k a rest,
  history live stale k a -> a_committed a = false -> (length live + length reqs <= 5)%nat -> sound_reqs reqs ->
  exists live' a', history live' stale k a' /\ a_committed a' = false /\
    apply_ops os (map (fun r => OReserve (fst r) (snd r)) reqs ++ rest) a = apply_ops os rest a'.
Proof.
  induction reqs as [|[t n] reqs IH]; intros live stale k a rest H Ec HL HS.
  - exists live, a. auto.
  - inversion HS as [|x y S1 S2]; subst. cbn [length] in HL.
    destruct (Reserve_ok t n a Ec) as [h [a1 [E [Ec1 _]]]].
    { rewrite (inv_blocks _ _ _ _ (history_inv _ _ _ _ H)). lia. }
    pose proof (hist_reserve _ _ _ _ _ _ _ _ H S1 E) as H1.
    destruct (IH _ _ _ _ rest H1 Ec1) as [l' [a2 [H2 [Ec2 E2]]]]; [|exact S2|].
    { rewrite app_length. cbn [length]. lia. }
    exists l', a2. split; [exact H2|]. split; [exact Ec2|].
    cbn [map app apply_ops apply_op fst snd]. rewrite E. cbn [bind]. exact E2.
Qed.

Lemma sessions_run os ops : os_sound os -> os_never_fails os (2 ^ 63) -> Forall modest_op ops -> sessions ops ->
  forall stale k a, history [] stale k a -> a_committed a = false -> phase_ok ops a os.
Proof.
  intros Hos Hnf HM HS. induction HS as [|reqs rest HL HS IH]; intros stale k a H Ec.
  - exists a. split; [reflexivity|]. unfold Destroy. rewrite Ec.
    pose proof (inv_blocks _ _ _ _ (history_inv _ _ _ _ H)) as ->. reflexivity.
  - apply Forall_app in HM. destruct HM as [M1 M2]. inversion M2 as [|x y _ M3]; subst. inversion M3 as [|x y _ M4]; subst.
    assert (SR : sound_reqs reqs).
    { apply Forall_forall. intros r Hr. rewrite Forall_forall in M1.
      apply (M1 (OReserve (fst r) (snd r))). apply in_map_iff. exists r. auto. }
    destruct (apply_reserves os reqs _ _ _ _ (OCommit :: ODecommit :: rest) H Ec HL SR) as [l' [a1 [H1 [Ec1 E1]]]].
    destruct (Commit_ok _ _ _ _ _ H1 Ec1 Hnf) as [a2 E2].
    pose proof (hist_commit _ _ _ _ _ _ H1 Hos E2) as H2.
    destruct (Commit_inv _ _ _ _ _ _ (history_inv _ _ _ _ H1) Hos E2) as [_ [_ Ec2]].
    assert (E3 : exists a3, Decommit a2 = Some a3 /\ a_committed a3 = false).
    { unfold Decommit. rewrite Ec2. cbn [guard bind]. eexists. split; reflexivity. }
    destruct E3 as [a3 [E3 Ec3]].
    destruct (IH M4 _ _ _ (hist_decommit _ _ _ _ _ H2 E3) Ec3) as [a4 [E4 E5]].
    exists a4. split; [|exact E5]. rewrite E1. cbn [apply_ops apply_op]. rewrite E2. cbn [bind]. rewrite E3. exact E4.
Qed.

(* conversely *)
Lemma run_sessions os : forall ops a, (Nat.le (length (a_offsets a)) 5) -> phase_ok ops a os ->
  (a_committed a = false -> exists reqs rest, (length (a_offsets a) + length reqs <= 5)%nat /\
     ((reqs = [] /\ rest = [] /\ length (a_offsets a) = 0%nat /\ ops = []) \/
      (sessions rest /\ ops = map (fun r => OReserve (fst r) (snd r)) reqs ++ OCommit :: ODecommit :: rest))) /\
  (a_committed a = true -> exists rest, sessions rest /\ ops = ODecommit :: rest).
Proof.
  induction ops as [|o ops IH]; intros a HL [a' [E D]].
  - injection E as <-. unfold Destroy in D. split; intros Ec; rewrite Ec in D; cbn [negb guard bind] in D; [|discriminate].
    destruct (Z.of_nat (length (a_offsets a)) =? 0) eqn:E0; [|discriminate].
    exists [], []. split; [cbn; lia|]. left. repeat split. lia.
  - cbn [apply_ops] in E. destruct o as [t n| |]; cbn [apply_op] in E.
    + unfold Reserve in E. destruct (a_committed a) eqn:Ec; [discriminate|]. cbn [negb guard bind] in E.
      split; [intros _|discriminate].
      destruct (Z.of_nat (length (a_offsets a)) <? kMaxBlocks) eqn:E5; [|discriminate]. cbn [guard bind] in E.
      unfold kMaxBlocks in E5.
      match type of E with apply_ops _ _ ?b = _ => set (b1 := b) in * end.
      assert (LB : length (a_offsets b1) = S (length (a_offsets a))) by (unfold b1; cbn [a_offsets]; rewrite app_length; cbn; lia).
      destruct (IH b1 ltac:(lia) (ex_intro _ a' (conj E D))) as [IH1 _].
      destruct (IH1 eq_refl) as [reqs [rest [HR [[R1 [R2 [R3 R4]]]|[R1 R2]]]]]; [lia|].
      exists ((t, n) :: reqs), rest. split; [cbn [length]; lia|]. right. split; [exact R1|].
      cbn [map app fst snd]. rewrite R2. reflexivity.
    + destruct (Commit os a) as [a1|] eqn:E1; [|discriminate]. cbn [bind] in E.
      assert (X : a_committed a = false /\ a_committed a1 = true /\ a_offsets a1 = a_offsets a).
      { unfold Commit in E1. destruct (a_committed a); [discriminate|]. cbn [negb guard bind] in E1.
        destruct (if a_bytes a >? a_size a then _ else _) as [sz st].
        destruct (_ || _); [|discriminate]. cbn [guard bind] in E1. injection E1 as <-. auto. }
      destruct X as [X1 [X2 X3]]. split; [intros _|congruence].
      destruct (IH a1 ltac:(rewrite X3; lia) (ex_intro _ a' (conj E D))) as [_ IH2].
      destruct (IH2 X2) as [rest [R1 R2]]. exists [], rest. split; [cbn; lia|]. right. split; [exact R1|].
      cbn. rewrite R2. reflexivity.
    + unfold Decommit in E. destruct (a_committed a) eqn:Ec; [|discriminate]. cbn [guard bind] in E.
      split; [discriminate|intros _].
      match type of E with apply_ops _ _ ?b = _ => set (b1 := b) in * end.
      destruct (IH b1 ltac:(cbn; lia) (ex_intro _ a' (conj E D))) as [IH1 _].
      destruct (IH1 eq_refl) as [reqs [rest [HR [[R1 [R2 [R3 R4]]]|[R1 R2]]]]].
      * exists []. split; [constructor|]. rewrite R4. reflexivity.
      * exists ops. split; [|reflexivity]. rewrite R2. constructor; [exact HR|exact R1].
Qed.

Theorem lifetimes os ops : os_sound os -> os_never_fails os (2 ^ 63) -> Forall modest_op ops ->
  ((exists a, apply_ops os ops new_alloc = Some a /\ Destroy a = Some tt) <-> sessions ops).
Proof.
  intros Hos Hnf HM. split.
  - intros H. destruct (run_sessions os ops new_alloc) as [R _]; [cbn; lia|exact H|].
    destruct (R eq_refl) as [reqs [rest [HR [[R1 [R2 [R3 R4]]]|[R1 R2]]]]].
    + rewrite R4. constructor.
    + rewrite R2. constructor; [exact HR|exact R1].
  - intros HS. apply (sessions_run os ops Hos Hnf HM HS [] 0); [constructor|reflexivity].
Qed.

(* ---- what goes wrong beyond the bounds ---- *)
Definition os64 (_ : Z) : Z := 64.

Theorem size_wrap_overlap_refuted : exists t n u m h1 h2 a1 a2 a3 p q,
  Reserve t n new_alloc = Some (h1, a1) /\ Reserve u m a1 = Some (h2, a2) /\ Commit os64 a2 = Some a3 /\
  GetPointer t h1 a3 = Some p /\ GetPointer u h2 a3 = Some q /\ 0 < m /\ 0 < n /\ p = q.
Proof.
  exists TInt32, (2 ^ 62), TInt32, 1. do 7 eexists.
  split; [vm_compute; reflexivity|]. split; [vm_compute; reflexivity|]. split; [vm_compute; reflexivity|].
  split; [vm_compute; reflexivity|]. split; [vm_compute; reflexivity|]. split; [lia|]. split; [lia|]. reflexivity.
Qed.

Definition os_one (size : Z) : Z := if size =? 64 then 64 else 0.
Lemma os_one_sound : os_sound os_one.
Proof.
  intros size Hs. unfold os_one. destruct (size =? 64) eqn:E; [right|left; reflexivity].
  split; [lia|]. split; [exists 1; reflexivity|]. lia.
Qed.

Definition idle (k : Z) : alloc := mk_alloc false 64 64 [] 0 (wrapU 64 k).
Definition first_handle (k : Z) : handle := mk_handle 0 (wrapU 64 k) TInt32.
Definition held (k : Z) : alloc := mk_alloc false 64 64 [0] 64 (wrapU 64 k).
Definition used (k : Z) : alloc := mk_alloc true 64 64 [0] 64 (wrapU 64 k).

Lemma one_round k : Reserve TInt32 1 (idle k) = Some (first_handle k, held k) /\
  Commit os_one (held k) = Some (used k) /\ Decommit (used k) = Some (idle (k + 1)).
Proof.
  split; [reflexivity|]. split; [reflexivity|]. unfold Decommit, used, idle. cbn [a_committed guard bind a_size a_storage a_generation].
  do 2 f_equal. unfold wrapU. rewrite Zplus_mod_idemp_l. reflexivity.
Qed.
Lemma first_round : history [] [first_handle 0] 1 (idle 1).
Proof.
  assert (M : modest TInt32 1) by (split; cbn; lia).
  pose proof (hist_reserve _ _ _ _ TInt32 1 _ _ hist_new M eq_refl) as H1.
  pose proof (hist_commit _ _ _ _ os_one _ H1 os_one_sound eq_refl) as H2.
  pose proof (hist_decommit _ _ _ _ _ H2 eq_refl) as H3. exact H3.
Qed.
Lemma many_rounds k : 1 <= k -> exists stale, In (first_handle 0) stale /\ history [] stale k (idle k).
Proof.
  intros Hk. replace k with (1 + (k - 1)) by lia. assert (0 <= k - 1) as Hj by lia.
  revert Hj. generalize (k - 1) as j. clear Hk k. apply natlike_ind.
  - exists [first_handle 0]. split; [left; reflexivity|]. exact first_round.
  - intros j Hj [stale [Hin H]]. replace (1 + Z.succ j) with (1 + j + 1) by lia.
    destruct (one_round (1 + j)) as [E1 [E2 E3]].
    assert (M : modest TInt32 1) by (split; cbn; lia).
    pose proof (hist_reserve _ _ _ _ _ _ _ _ H M E1) as H1.
    pose proof (hist_commit _ _ _ _ _ _ H1 os_one_sound E2) as H2.
    pose proof (hist_decommit _ _ _ _ _ H2 E3) as H3.
    eexists. split; [|exact H3]. right. exact Hin.
Qed.

(* after exactly 2^64 Decommits the generation counter has come round *)
Theorem generation_wrap_refuted : exists live stale k a h t p,
  history live stale k a /\ k = 2 ^ 64 /\ In h stale /\ GetPointer t h a = Some p.
Proof.
  destruct (many_rounds (2 ^ 64) ltac:(lia)) as [stale [Hin H]].
  destruct (one_round (2 ^ 64)) as [E1 [E2 E3]].
  assert (M : modest TInt32 1) by (split; cbn; lia).
  pose proof (hist_reserve _ _ _ _ _ _ _ _ H M E1) as H1.
  pose proof (hist_commit _ _ _ _ _ _ H1 os_one_sound E2) as H2.
  do 7 eexists. split; [exact H2|]. split; [reflexivity|]. split; [exact Hin|]. instantiate (1 := 64). instantiate (1 := TInt32). vm_compute. reflexivity.
Qed.

(* ---- the buffers of a GEMM ---- *)
Definition fits_int (bp : block_params) : Prop :=
  0 <= bp_l2_rows bp < 2 ^ 31 /\ 0 <= bp_l2_cols bp < 2 ^ 31 /\ 0 <= bp_l2_depth bp /\
  bp_l2_rows bp * bp_l2_depth bp < 2 ^ 31 /\ bp_l2_cols bp * bp_l2_depth bp < 2 ^ 31 /\
  bp_l2_rows bp * bp_l2_cols bp < 2 ^ 31.

Theorem gemm_buffers bp reqs stale k a os :
  fits_int bp -> In reqs [single_thread_requests bp; master_requests bp; task_requests bp] ->
  history [] stale k a -> a_committed a = false -> os_sound os -> os_never_fails os (2 ^ 63) ->
  exists hs a1 a2 addr, reserve_all reqs a = Some (hs, a1) /\ Commit os a1 = Some a2 /\
    length hs = length reqs /\ laid_out a2 (map (fun x => (fst x, fst (snd x), snd (snd x))) (combine hs reqs)) addr.
Proof.
  intros [B1 [B2 [B3 [B4 [B5 B6]]]]] Hin H Ec Hos Hnf.
  apply (request_session reqs [] stale k a os H eq_refl Ec); auto.
  - destruct Hin as [<-|[<-|[<-|[]]]]; cbn; lia.
  - intros t n HI.
    assert (modest TUint8 (bp_l2_rows bp * bp_l2_depth bp)) by (split; cbn [type_size]; nia).
    assert (modest TUint8 (bp_l2_cols bp * bp_l2_depth bp)) by (split; cbn [type_size]; nia).
    assert (modest TInt32 (bp_l2_rows bp * bp_l2_cols bp)) by (split; cbn [type_size]; nia).
    assert (modest TInt32 (bp_l2_rows bp)) by (split; cbn [type_size]; nia).
    assert (modest TInt32 (bp_l2_cols bp)) by (split; cbn [type_size]; nia).
    destruct Hin as [<-|[<-|[<-|[]]]];
      unfold single_thread_requests, master_requests, task_requests, packed_side_requests, packed_result_requests in HI;
      cbn [GetSideBlockParams sp_l2_width sp_l2_depth app In] in HI;
      repeat (destruct HI as [HI|HI]; [injection HI as <- <-; assumption|]); contradiction.
Qed.

(* a sixth block is refused *)
Theorem six_blocks_refused reqs a : a_offsets a = [] -> (5 < length reqs)%nat -> reserve_all reqs a = None.
Proof.
  assert (G : forall reqs a, (5 < length (a_offsets a) + length reqs)%nat -> reqs <> [] -> (length (a_offsets a) <= 5)%nat ->
                reserve_all reqs a = None).
  { clear. induction reqs as [|[t n] reqs IH]; intros a HL HN H5; [congruence|]. cbn [reserve_all length] in *.
    unfold Reserve. destruct (negb (a_committed a)); [|reflexivity]. cbn [guard bind].
    destruct (Z.of_nat (length (a_offsets a)) <? kMaxBlocks) eqn:E; [|reflexivity]. cbn [guard bind].
    unfold kMaxBlocks in E. rewrite IH; [reflexivity| | |]; cbn [a_offsets]; rewrite ?app_length; cbn [length]; try lia.
    intros ->. cbn [length] in HL. lia. }
  intros E HL. apply G; rewrite ?E; cbn [length]; [lia| |lia]. intros ->. cbn in HL. lia.
Qed.
