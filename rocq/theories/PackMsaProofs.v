(* PackMsaProofs.v: the MSA packing code leaves what the packing specification says *)
From Verif Require Import Base BaseLemmas CommonModel CommonProofs PackModel PackSpec PackProofs PackBlock PackSimdModel PackSimdProofs
  PackSimdProofs2 PackMsaModel.

(* ---- the rows of stores are those of the NEON code ---- *)
Lemma store_app l1 : forall l2 m a,
  store m a (l1 ++ l2) = bind (store m a l1) (fun m' => store m' (a + Z.of_nat (length l1)) l2).
Proof.
  induction l1 as [|v l1 IH]; intros l2 m a; [cbn; rewrite Z.add_0_r; reflexivity|].
  cbn [app store length]. destruct (wr m a v) as [m'|]; [|reflexivity]. cbn [bind]. rewrite IH.
  destruct (store m' (a + 1) l1) as [m''|]; [|reflexivity]. cbn [bind]. f_equal. lia.
Qed.
(* the cells of a loop *)
Fixpoint cells (n : nat) (start step : Z) : list Z :=
  match n with O => [] | S n' => start :: cells n' (start + step) step end.

Definition put (len : Z) (pc : Z -> list Z) (c : Z) (st : Z * mem) : option (Z * mem) :=
  let '(p, data) := st in let* data := store data p (pc c) in Some (p + len, data).
Lemma put_loop len step (pc : Z -> list Z) : 0 < step -> forall n fuel start stop p data,
  (n <= fuel)%nat -> stop = start + step * Z.of_nat n ->
  (forall c, In c (cells n start step) -> Z.of_nat (length (pc c)) = len) ->
  for_loop fuel start stop step (put len pc) (p, data) =
  bind (store data p (flat_map pc (cells n start step))) (fun d => Some (p + len * Z.of_nat n, d)).
Proof.
  intros Hs. induction n as [|n IH]; intros fuel start stop p data Hf -> Hlen.
  - cbn [cells flat_map store bind]. change (Z.of_nat 0) with 0. rewrite !Z.mul_0_r, !Z.add_0_r.
    destruct fuel; cbn [for_loop]; replace (start <? start) with false by lia; reflexivity.
  - destruct fuel as [|fuel]; [lia|]. cbn [for_loop cells flat_map].
    assert (0 < step * Z.of_nat (S n)) by (apply Z.mul_pos_pos; lia).
    replace (start <? start + step * Z.of_nat (S n)) with true by lia. unfold put at 1. rewrite store_app.
    destruct (store data p (pc start)) as [d|] eqn:E; [|reflexivity]. cbn [bind].
    rewrite (IH fuel (start + step)); [|lia|lia|intros c Hc; apply Hlen; right; exact Hc]. rewrite Hlen by (left; reflexivity).
    destruct (store d (p + len) _) as [d'|]; [|reflexivity]. cbn [bind]. do 2 f_equal. lia.
Qed.
Lemma put_step len step (pc : Z -> list Z) n start stop p data : 0 < step ->
  stop = start + step * Z.of_nat n ->
  (forall c, In c (cells n start step) -> Z.of_nat (length (pc c)) = len) ->
  for_step start stop step (put len pc) (p, data) =
  bind (store data p (flat_map pc (cells n start step))) (fun d => Some (p + len * Z.of_nat n, d)).
Proof.
  intros Hs E Hl. unfold for_step. apply put_loop; try assumption. nia.
Qed.
Lemma cells_pairs (h : Z -> list Z) n : forall start,
  flat_map (fun c => h c ++ h (c + 1)) (cells n start 2) = flat_map h (cells (2 * n) start 1).
Proof.
  induction n as [|n IH]; intros start; [reflexivity|].
  replace (2 * S n)%nat with (S (S (2 * n))) by lia. cbn [cells flat_map]. rewrite IH, <- app_assoc.
  replace (start + 1 + 1) with (start + 2) by ring. reflexivity.
Qed.
Lemma cells_app n1 : forall n2 start, cells (n1 + n2) start 1 = cells n1 start 1 ++ cells n2 (start + Z.of_nat n1) 1.
Proof.
  induction n1 as [|n1 IH]; intros n2 start; [cbn; rewrite Z.add_0_r; reflexivity|].
  cbn [cells Nat.add app]. rewrite IH. do 3 f_equal. lia.
Qed.
Lemma cells_in n : forall start step c, 0 < step -> In c (cells n start step) -> start <= c < start + step * Z.of_nat n.
Proof.
  induction n as [|n IH]; intros start step c Hs H; [destruct H|].
  cbn [cells] in H. destruct H as [<-|H]; [nia|]. specialize (IH (start + step) step c Hs H). nia.
Qed.
Lemma flat_map_ext_in {A} (h h' : A -> list Z) l : (forall c, In c l -> h c = h' c) -> flat_map h l = flat_map h' l.
Proof.
  induction l as [|c l IH]; intros H; [reflexivity|]. cbn [flat_map]. rewrite (H c (or_introl eq_refl)), IH by (intros; apply H; right; assumption). reflexivity.
Qed.

(* one row of the NEON stores *)
Definition neon_row_of (kCells : Z) (x : Z -> list Z) (st : Z * mem) : option (Z * mem) :=
  let* st := for_step 0 kCells 1 (put 8 (fun c => low 8 (x c))) st in
  for_step 0 kCells 1 (put 8 (fun c => high 8 (x c))) st.
Lemma ilvr_d a b : msa_ilvr 1 8 b a = low 8 a ++ low 8 b.
Proof. unfold msa_ilvr, grp, low. cbn [seq flat_map]. rewrite app_nil_r. reflexivity. Qed.
Lemma ilvl_d a b : length a = 16%nat -> length b = 16%nat -> msa_ilvl 1 8 b a = high 8 a ++ high 8 b.
Proof.
  intros Ha Hb. unfold msa_ilvl, grp, high. cbn [seq flat_map]. rewrite app_nil_r. change (8 * 1)%nat with 8%nat.
  rewrite !firstn_all2 by (rewrite skipn_length; lia). reflexivity.
Qed.
Lemma low_len (a : list Z) : length a = 16%nat -> Z.of_nat (length (low 8 a)) = 8.
Proof. intros H. unfold low. rewrite firstn_length. lia. Qed.
Lemma high_len (a : list Z) : length a = 16%nat -> Z.of_nat (length (high 8 a)) = 8.
Proof. intros H. unfold high. rewrite skipn_length. lia. Qed.
Lemma flat_len (h : Z -> list Z) n start : (forall c, start <= c < start + Z.of_nat n -> Z.of_nat (length (h c)) = 8) ->
  Z.of_nat (length (flat_map h (cells n start 1))) = 8 * Z.of_nat n.
Proof.
  revert start. induction n as [|n IH]; intros start H; [reflexivity|]. cbn [cells flat_map]. rewrite app_length, Nat2Z.inj_add, IH.
  - rewrite H by lia. lia.
  - intros c Hc. apply H. lia.
Qed.
Lemma bind_bind {A B C} (e : option A) (k : A -> option B) (k' : B -> option C) :
  bind (bind e k) k' = bind e (fun a => bind (k a) k').
Proof. destruct e; reflexivity. Qed.

Lemma row_eq kCells (x : Z -> list Z) st : 0 < kCells -> (forall c, 0 <= c < kCells -> length (x c) = 16%nat) ->
  msa_store_row kCells x st = neon_row_of kCells x st.
Proof.
  intros Hk Hx. destruct st as [p data]. unfold neon_row_of.
  set (n := Z.to_nat kCells). assert (En : kCells = 0 + 1 * Z.of_nat n) by (unfold n; lia).
  assert (HL : forall c, 0 <= c < kCells -> Z.of_nat (length (low 8 (x c))) = 8) by (intros; apply low_len, Hx; assumption).
  assert (HH : forall c, 0 <= c < kCells -> Z.of_nat (length (high 8 (x c))) = 8) by (intros; apply high_len, Hx; assumption).
  (* both sides store the low halves followed by the high halves *)
  assert (EN : bind (for_step 0 kCells 1 (put 8 (fun c => low 8 (x c))) (p, data))
                 (fun st => for_step 0 kCells 1 (put 8 (fun c => high 8 (x c))) st) =
    bind (store data p (flat_map (fun c => low 8 (x c)) (cells n 0 1) ++ flat_map (fun c => high 8 (x c)) (cells n 0 1)))
      (fun d => Some (p + 16 * kCells, d))).
  { rewrite (put_step 8 1 (fun c => low 8 (x c)) n 0 kCells); [|lia|exact En|intros c Hc; apply cells_in in Hc; [apply HL; lia|lia]].
    rewrite store_app, !bind_bind.
    destruct (store data p _) as [d|]; [|reflexivity]. cbn [bind].
    rewrite (put_step 8 1 (fun c => high 8 (x c)) n 0 kCells); [|lia|exact En|intros c Hc; apply cells_in in Hc; [apply HH; lia|lia]].
    rewrite flat_len by (intros c Hc; apply HL; lia).
    destruct (store d _ _) as [d'|]; [|reflexivity]. cbn [bind]. do 2 f_equal. lia. }
  rewrite EN. clear EN. unfold msa_store_row. rewrite Z.rem_mod_nonneg by lia.
  change (fun cell st => st_b st (msa_ilvr 1 8 (x (cell + 1)) (x cell))) with (put 16 (fun c => msa_ilvr 1 8 (x (c + 1)) (x c))).
  change (fun cell st => st_b st (msa_ilvl 1 8 (x (cell + 1)) (x cell))) with (put 16 (fun c => msa_ilvl 1 8 (x (c + 1)) (x c))).
  set (plo := fun c => msa_ilvr 1 8 (x (c + 1)) (x c)). set (phi := fun c => msa_ilvl 1 8 (x (c + 1)) (x c)).
  assert (Hplo : forall c, plo c = low 8 (x c) ++ low 8 (x (c + 1))) by (intros; apply ilvr_d).
  assert (Hphi : forall c, 0 <= c < kCells - 1 -> phi c = high 8 (x c) ++ high 8 (x (c + 1))).
  { intros c Hc. apply ilvl_d; apply Hx; lia. }
  assert (Llo : forall c, 0 <= c < kCells - 1 -> Z.of_nat (length (plo c)) = 16).
  { intros c Hc. rewrite Hplo, app_length, Nat2Z.inj_add, !HL by lia. reflexivity. }
  assert (Lhi : forall c, 0 <= c < kCells - 1 -> Z.of_nat (length (phi c)) = 16).
  { intros c Hc. rewrite Hphi, app_length, Nat2Z.inj_add, !HH by lia. reflexivity. }
  set (h := Z.to_nat (kCells / 2)).
  assert (Hin : forall c start, In c (cells h start 2) -> exists i, c = start + 2 * i /\ 0 <= i < Z.of_nat h).
  { clear. induction h as [|h IH]; intros c start Hc; [destruct Hc|]. cbn [cells] in Hc. destruct Hc as [<-|Hc]; [exists 0; lia|].
    destruct (IH c (start + 2) Hc) as (i & E & B). exists (i + 1). lia. }
  destruct (Z.eqb_spec (kCells mod 2) 0) as [Ev|Od].
  - assert (Eh : n = (2 * h)%nat) by (unfold n, h; lia).
    assert (Hc1 : forall c, In c (cells h 0 2) -> 0 <= c < kCells - 1).
    { intros c Hc. destruct (Hin c 0 Hc) as (i & E & B). lia. }
    rewrite (put_step 16 2 plo h 0 kCells); [|lia|lia|intros c Hc; apply Llo, Hc1, Hc].
    rewrite Eh, <- !cells_pairs.
    rewrite (flat_map_ext_in (fun c => low 8 (x c) ++ low 8 (x (c + 1))) plo) by (intros c Hc; symmetry; apply Hplo).
    rewrite (flat_map_ext_in (fun c => high 8 (x c) ++ high 8 (x (c + 1))) phi) by (intros c Hc; symmetry; apply Hphi, Hc1, Hc).
    assert (Flen : Z.of_nat (length (flat_map plo (cells h 0 2))) = 16 * Z.of_nat h).
    { rewrite (flat_map_ext_in plo (fun c => low 8 (x c) ++ low 8 (x (c + 1)))) by (intros c Hc; apply Hplo).
      rewrite (cells_pairs (fun c => low 8 (x c))), flat_len by (intros c Hc; apply HL; lia). lia. }
    rewrite store_app, !bind_bind. destruct (store data p _) as [d|]; [|reflexivity]. cbn [bind].
    rewrite (put_step 16 2 phi h 0 kCells); [|lia|lia|intros c Hc; apply Lhi, Hc1, Hc]. rewrite Flen.
    destruct (store d _ _) as [d'|]; [|reflexivity]. cbn [bind]. do 2 f_equal. lia.
  - assert (Eh : n = (2 * h + 1)%nat) by (unfold n, h; lia).
    assert (Hc0 : forall c, In c (cells h 0 2) -> 0 <= c < kCells - 1).
    { intros c Hc. destruct (Hin c 0 Hc) as (i & E & B). lia. }
    assert (Hc1 : forall c, In c (cells h 1 2) -> 0 <= c < kCells - 1).
    { intros c Hc. destruct (Hin c 1 Hc) as (i & E & B). lia. }
    rewrite (put_step 16 2 plo h 0 (kCells - 1)); [|lia|lia|intros c Hc; apply Llo, Hc0, Hc].
    assert (EL : flat_map (fun c => low 8 (x c)) (cells n 0 1) = flat_map plo (cells h 0 2) ++ low 8 (x (kCells - 1))).
    { rewrite Eh, cells_app, flat_map_app, <- cells_pairs. cbn [cells flat_map]. rewrite app_nil_r.
      rewrite (flat_map_ext_in plo (fun c => low 8 (x c) ++ low 8 (x (c + 1)))) by (intros c Hc; apply Hplo).
      replace (0 + Z.of_nat (2 * h)) with (kCells - 1) by lia. reflexivity. }
    assert (EH : flat_map (fun c => high 8 (x c)) (cells n 0 1) = high 8 (x 0) ++ flat_map phi (cells h 1 2)).
    { rewrite Eh, Nat.add_comm, cells_app, flat_map_app. cbn [cells flat_map]. rewrite app_nil_r.
      change (0 + Z.of_nat 1) with 1.
      rewrite <- (cells_pairs (fun c => high 8 (x c))).
      rewrite (flat_map_ext_in phi (fun c => high 8 (x c) ++ high 8 (x (c + 1)))) by (intros c Hc; apply Hphi, Hc1, Hc). reflexivity. }
    rewrite EL, EH.
    assert (Flen : Z.of_nat (length (flat_map plo (cells h 0 2))) = 16 * Z.of_nat h).
    { rewrite (flat_map_ext_in plo (fun c => low 8 (x c) ++ low 8 (x (c + 1)))) by (intros c Hc; apply Hplo).
      rewrite (cells_pairs (fun c => low 8 (x c))), flat_len by (intros c Hc; apply HL; lia). lia. }
    rewrite <- app_assoc, store_app, !bind_bind. destruct (store data p _) as [d|]; [|reflexivity]. cbn [bind]. rewrite Flen.
    rewrite (app_assoc (low 8 (x (kCells - 1)))). change (low 8 (x (kCells - 1)) ++ high 8 (x 0)) with (msa_insve_d0 (x 0) (x (kCells - 1))).
    rewrite store_app. unfold st_b. rewrite !bind_bind. destruct (store d _ _) as [d'|]; [|reflexivity]. cbn [bind].
    rewrite (put_step 16 2 phi h 1 kCells); [|lia|lia|intros c Hc; apply Lhi, Hc1, Hc].
    replace (Z.of_nat (length (msa_insve_d0 (x 0) (x (kCells - 1))))) with 16
      by (unfold msa_insve_d0; rewrite app_length, Nat2Z.inj_add, HL, HH by lia; reflexivity).
    destruct (store d' _ _) as [d''|]; [|reflexivity]. cbn [bind]. do 2 f_equal. lia.
Qed.

(* ---- whole blocks of 4x2 cells ---- *)
Lemma for_step_ext {S} (b b' : Z -> S -> option S) start stop : (forall c s, start <= c < stop -> b c s = b' c s) ->
  forall s, for_step start stop 1 b s = for_step start stop 1 b' s.
Proof.
  unfold for_step. generalize (Z.to_nat (stop - start)) as n. intros n. revert start.
  induction n as [|n IH]; intros start H s; [reflexivity|]. cbn [for_loop].
  destruct (Z.ltb_spec start stop) as [L|L]; [|reflexivity]. rewrite H by lia.
  destruct (b' start s) as [s'|]; [|reflexivity]. cbn [bind]. apply IH. intros c s0 Hc. apply H. lia.
Qed.
Lemma intertwined_eq k lines c outer inner : (k = 1%nat \/ k = 2%nat) -> (outer = 0 \/ outer = 1) -> (inner = 0 \/ inner = 1) ->
  msa_intertwined_4x k lines c outer inner = val (intertwined_4x k lines c outer) inner.
Proof.
  intros Hk Ho Hi. unfold msa_intertwined_4x, intertwined_4x. cbv zeta.
  replace (4 * c + 2 + 1) with (4 * c + 3) by ring. rewrite !Z.add_0_r.
  destruct Hk as [-> | ->], Ho as [-> | ->], Hi as [-> | ->]; reflexivity.
Qed.
Lemma intertwined_length k h lines c outer inner : quad h lines c -> (k = 1%nat \/ k = 2%nat) ->
  (outer = 0 \/ outer = 1) -> (inner = 0 \/ inner = 1) -> length (val (intertwined_4x k lines c outer) inner) = 16%nat.
Proof.
  intros H Hk Ho Hi. destruct Hk as [-> | ->]; [rewrite (dm_cells h) by assumption|rewrite (wm_cells h) by assumption]; reflexivity.
Qed.
Lemma store_eq k kCells h lines data p : 0 < kCells -> (k = 1%nat \/ k = 2%nat) ->
  (forall c, 0 <= c < kCells -> quad (h c) lines c) ->
  msa_store k kCells lines data p = neon_store k kCells lines data p.
Proof.
  intros Hk Hkk Hq. unfold msa_store, neon_store. apply for_step_ext. intros outer st Hou. apply for_step_ext. intros inner st' Hin.
  assert (Ho : outer = 0 \/ outer = 1) by lia. assert (Hi : inner = 0 \/ inner = 1) by lia.
  rewrite row_eq; [|exact Hk|].
  - unfold neon_row_of. rewrite (for_step_ext (put 8 (fun c => low 8 (msa_intertwined_4x k lines c outer inner)))
      (fun cell st => let '(dst_ptr, data) := st in
          let* data := store data dst_ptr (low 8 (val (intertwined_4x k lines cell outer) inner)) in
          Some (dst_ptr + 8, data))).
    2: { intros c s Hc. unfold put. rewrite intertwined_eq by assumption. reflexivity. }
    destruct (for_step 0 kCells 1 _ st') as [s|]; [|reflexivity]. cbn [bind]. apply for_step_ext.
    intros c s' Hc. unfold put. rewrite intertwined_eq by assumption. reflexivity.
  - intros c Hc. rewrite intertwined_eq by assumption. apply (intertwined_length k (h c)); auto.
Qed.

Lemma map2_comm (h h' : Z -> Z -> Z) : (forall x y, h x y = h' y x) -> forall a b, map2 h a b = map2 h' b a.
Proof. intros H. induction a as [|x a IH]; intros [|y b]; cbn [map2]; try reflexivity. rewrite H, IH. reflexivity. Qed.
Lemma sums_eq kCells (cs cs' : Z -> list Z) sums sw : (forall c, 0 <= c < kCells -> cs c = cs' c) ->
  msa_sums kCells cs sums sw = neon_sums kCells cs' sums sw.
Proof.
  intros H. unfold msa_sums, neon_sums. apply for_step_ext. intros c s Hc. cbv zeta.
  destruct (load s (sw + 4 * c) 4) as [old|]; [|reflexivity]. cbn [bind]. rewrite H by exact Hc. f_equal.
  apply map2_comm. intros x y. f_equal. ring.
Qed.

Section CellSums.
Variable h : nat -> nat -> Z.
Hypothesis Hh : forall i k, (i < 4)%nat -> (k < 16)%nat -> 0 <= h i k <= 255.

(* interleaving with zeros and reading lanes of twice the size *)
Ltac elements l := repeat (destruct l as [|? l]; [discriminate|]); destruct l; [|discriminate].
Lemma zext8 (l : list Z) : length l = 16%nat -> widen 8 (msa_ilvr 8 1 (repeat 0 16) l) = low 8 l /\
  widen 8 (msa_ilvl 8 1 (repeat 0 16) l) = high 8 l.
Proof.
  intros H. elements l. unfold widen, msa_ilvr, msa_ilvl, grp, low, high.
  cbn [map seq repeat flat_map Nat.mul Nat.add skipn firstn app pairs].
  rewrite !Z.mul_0_r, !Z.add_0_r. split; reflexivity.
Qed.
Lemma zext16 (l : list Z) : length l = 8%nat -> widen 16 (msa_ilvr 4 1 (repeat 0 8) l) = low 4 l /\
  widen 16 (msa_ilvl 4 1 (repeat 0 8) l) = high 4 l.
Proof.
  intros H. elements l. unfold widen, msa_ilvr, msa_ilvl, grp, low, high.
  cbn [map seq repeat flat_map Nat.mul Nat.add skipn firstn app pairs].
  rewrite !Z.mul_0_r, !Z.add_0_r. split; reflexivity.
Qed.
Lemma map2_length k a : forall b, length (map2 k a b) = Nat.min (length a) (length b).
Proof. induction a as [|x a IH]; intros [|y b]; cbn; try reflexivity. rewrite IH. reflexivity. Qed.
Lemma msa_depth_major_sum_ok lines c : quad h lines c -> msa_depth_major_sum lines c = map (hsum h) (seq 0 4).
Proof.
  intros H. rewrite <- (depth_major_sum_ok h Hh lines c H). unfold msa_depth_major_sum, depth_major_sum. cbv zeta.
  assert (E : forall i, 0 <= i < 4 ->
    msa_addv_w
      (widen 16 (msa_ilvr 4 1 (repeat 0 8) (msa_addv_h
         (widen 8 (msa_ilvr 8 1 (repeat 0 16) (msa_intertwined_4x 1 lines c (i / 2) (i mod 2))))
         (widen 8 (msa_ilvl 8 1 (repeat 0 16) (msa_intertwined_4x 1 lines c (i / 2) (i mod 2)))))))
      (widen 16 (msa_ilvl 4 1 (repeat 0 8) (msa_addv_h
         (widen 8 (msa_ilvr 8 1 (repeat 0 16) (msa_intertwined_4x 1 lines c (i / 2) (i mod 2))))
         (widen 8 (msa_ilvl 8 1 (repeat 0 16) (msa_intertwined_4x 1 lines c (i / 2) (i mod 2))))))) =
    as_signed 32 (vaddl_u 32
      (low 4 (vaddl_u 16 (low 8 (val (intertwined_4x 1 lines c (i / 2)) (i mod 2))) (high 8 (val (intertwined_4x 1 lines c (i / 2)) (i mod 2)))))
      (high 4 (vaddl_u 16 (low 8 (val (intertwined_4x 1 lines c (i / 2)) (i mod 2))) (high 8 (val (intertwined_4x 1 lines c (i / 2)) (i mod 2))))))).
  { intros i Hi. rewrite intertwined_eq by lia.
    pose proof (intertwined_length 1 h lines c (i / 2) (i mod 2) H ltac:(lia) ltac:(lia) ltac:(lia)) as HL.
    set (x := val _ _) in *. destruct (zext8 x HL) as [-> ->].
    change (msa_addv_h (low 8 x) (high 8 x)) with (vaddl_u 16 (low 8 x) (high 8 x)).
    assert (HL2 : length (vaddl_u 16 (low 8 x) (high 8 x)) = 8%nat).
    { unfold vaddl_u, low, high. rewrite map2_length, firstn_length, skipn_length, HL. reflexivity. }
    set (y := vaddl_u 16 _ _) in *. destruct (zext16 y HL2) as [-> ->].
    unfold msa_addv_w, as_signed, vaddl_u. generalize (low 4 y) (high 4 y). induction l as [|a l IH]; intros [|b l']; cbn [map2 map]; try reflexivity.
    rewrite IH. f_equal. apply wrapS_eq_mod; [lia|]. unfold wrapU. symmetry. apply Z.mod_mod. lia. }
  rewrite !E by lia. reflexivity.
Qed.
Lemma msa_width_major_sum_ok lines c : quad h lines c -> msa_width_major_sum lines c = map (hsum h) (seq 0 4).
Proof.
  intros H. unfold msa_width_major_sum. cbv zeta.
  change (2 * 0) with 0. change (2 * 1) with 2. change (0 + 1) with 1. change (2 + 1) with 3.
  change (0 / 2) with 0. change (1 / 2) with 0. change (2 / 2) with 1. change (3 / 2) with 1.
  change (0 mod 2) with 0. change (1 mod 2) with 1. change (2 mod 2) with 0. change (3 mod 2) with 1.
  rewrite !intertwined_eq by lia. rewrite !(wm_cells h lines c) by (assumption || lia).
  set (s8 := msa_addv_h _ _).
  set (p := fun a b => wrapU 16 (a + b)). set (q := fun i d => p (h i (2 * d + 1)%nat) (h i (2 * d)%nat)).
  set (e := fun k i => p (p (q i k) (q i (k + 2)%nat)) (p (q i (k + 4)%nat) (q i (k + 6)%nat))).
  assert (E8 : s8 = map (e 0%nat) (seq 0 4) ++ map (e 1%nat) (seq 0 4)) by reflexivity.
  assert (HL : length s8 = 8%nat) by (rewrite E8; reflexivity).
  destruct (zext16 s8 HL) as [-> ->]. rewrite E8.
  change (low 4 (map (e 0%nat) (seq 0 4) ++ map (e 1%nat) (seq 0 4))) with (map (e 0%nat) (seq 0 4)).
  change (high 4 (map (e 0%nat) (seq 0 4) ++ map (e 1%nat) (seq 0 4))) with (map (e 1%nat) (seq 0 4)).
  unfold msa_addv_w. rewrite map2_map. apply map_ext_in. intros i Hi. apply in_seq in Hi.
  assert (Hb : forall k, (k < 16)%nat -> 0 <= h i k <= 255) by (intros k Hk; apply Hh; lia).
  assert (Hp : forall a b, p a b = (a + b) mod 65536) by reflexivity.
  unfold e, q, hsum. cbn [Nat.mul Nat.add].
  pose proof (Hb 0%nat ltac:(lia)). pose proof (Hb 1%nat ltac:(lia)). pose proof (Hb 2%nat ltac:(lia)). pose proof (Hb 3%nat ltac:(lia)).
  pose proof (Hb 4%nat ltac:(lia)). pose proof (Hb 5%nat ltac:(lia)). pose proof (Hb 6%nat ltac:(lia)). pose proof (Hb 7%nat ltac:(lia)).
  pose proof (Hb 8%nat ltac:(lia)). pose proof (Hb 9%nat ltac:(lia)). pose proof (Hb 10%nat ltac:(lia)). pose proof (Hb 11%nat ltac:(lia)).
  pose proof (Hb 12%nat ltac:(lia)). pose proof (Hb 13%nat ltac:(lia)). pose proof (Hb 14%nat ltac:(lia)). pose proof (Hb 15%nat ltac:(lia)).
  clear Hb. rewrite !Hp. rewrite <- !Z.add_mod by lia.
  rewrite !Z.mod_small by lia. rewrite wrapS_small by (unfold int_min, int_max; cbn; lia). ring.
Qed.
End CellSums.

Lemma msa_Pack4x2_correct m f k cell_sum src sw b g s :
  side_fmt_ok f -> sm_order src = SWidthMajor ->
  (k = 1%nat /\ cell_sum = msa_depth_major_sum /\ is_format 4 2 CDepthMajor FUint8 f = true \/
   k = 2%nat /\ cell_sum = msa_width_major_sum /\ is_format 4 2 CWidthMajor FUint8 f = true) ->
  pack_correct_at m f 16 (msa_Pack4x2 k cell_sum f 16) src sw b g s.
Proof.
  intros Hf Ho Hk A0 Hsw Hsd Hsrc Hd0 Hs1 Hm.
  assert (Hfmt : sf_cw f = 4 /\ sf_cd f = 2 /\ sf_kind f = FUint8).
  { destruct Hk as [(_ & _ & E)|(_ & _ & E)]; apply is_format_spec in E; tauto. }
  destruct Hfmt as (Ecw & Ecd & Es). destruct (f_pos f Hf) as (Fcw&Fcd&Fcells&Fw&Fcs).
  assert (EW : sf_width f = sf_cells f * 4) by (unfold sf_width; rewrite Ecw; reflexivity).
  set (cs := match k with 1%nat => depth_major_sum | _ => width_major_sum end).
  assert (Hk' : k = 1%nat /\ cs = depth_major_sum /\ is_format 4 2 CDepthMajor FUint8 f = true \/
                k = 2%nat /\ cs = width_major_sum /\ is_format 4 2 CWidthMajor FUint8 f = true).
  { unfold cs. destruct Hk as [(-> & _ & E)|(-> & _ & E)]; auto. }
  assert (E : msa_Pack4x2 k cell_sum f 16 src sw b = neon_Pack4x2 k cs f 16 src sw b).
  { unfold msa_Pack4x2, neon_Pack4x2. cbv zeta.
    destruct (neon_lines_ok f src g Ho Hsrc (4 * sf_cells f) ltac:(lia)) as (lines & El & Hl). rewrite El. cbn [bind].
    set (h := fun c i k => g (4 * c + Z.of_nat i) (Z.of_nat k)).
    assert (Hquad : forall c, 0 <= c < sf_cells f -> quad (h c) lines c).
    { intros c Hc i Hi. rewrite Hl by lia. reflexivity. }
    assert (Hhr : forall c i k, 0 <= c < sf_cells f -> (i < 4)%nat -> (k < 16)%nat -> 0 <= h c i k <= 255).
    { intros c i k0 Hc Hi Hk0. unfold h. destruct (Hsrc (4 * c + Z.of_nat i) (Z.of_nat k0) ltac:(lia) ltac:(lia)) as [_ B].
      unfold in_min in B. rewrite Es in B. lia. }
    rewrite (store_eq k (sf_cells f) h) by (assumption || lia || tauto).
    destruct (neon_store _ _ _ _ _) as [[p data]|]; [|reflexivity]. cbn [bind].
    rewrite (sums_eq (sf_cells f) (cell_sum lines) (cs lines)); [reflexivity|].
    intros c Hc. specialize (Hquad c Hc). pose proof (fun i k => Hhr c i k Hc) as HB.
    destruct Hk as [(Ek & -> & _)|(Ek & -> & _)], Hk' as [(Ek' & -> & _)|(Ek' & -> & _)]; try (rewrite Ek in Ek'; discriminate).
    - rewrite (msa_depth_major_sum_ok (h c)), (depth_major_sum_ok (h c)) by assumption. reflexivity.
    - rewrite (msa_width_major_sum_ok (h c)), (width_major_sum_ok (h c)) by assumption. reflexivity. }
  apply (pack_at_ext m f 16 (neon_Pack4x2 k cs f 16) (msa_Pack4x2 k cell_sum f 16) src sw b g s E); try assumption.
  apply neon_Pack4x2_correct; assumption.
Qed.

(* ---- 16-deep int8 cells ---- *)
Section Int8.
Variable v : nat -> nat -> Z.
Hypothesis Hv : forall i k, (k < 16)%nat -> -128 <= v i k <= 127.
Definition q32 (a b : Z) : Z := wrapS 32 (a + b).
Definition s4 (i k : nat) : Z := wrapS 16 (q32 (p16 (v i (4 * k + 3)%nat) (v i (4 * k + 2)%nat)) (p16 (v i (4 * k + 1)%nat) (v i (4 * k)%nat))).
Definition s8 (i k : nat) : Z := q32 (s4 i (2 * k + 1)%nat) (s4 i (2 * k)%nat).

Lemma p16_small a b : -16384 <= a <= 16383 -> -16384 <= b <= 16383 -> p16 a b = a + b.
Proof. intros Ha Hb. unfold p16. apply wrapS_small; unfold int_min, int_max; cbn; lia. Qed.
Lemma q32_small a b : -65536 <= a <= 65536 -> -65536 <= b <= 65536 -> q32 a b = a + b.
Proof. intros Ha Hb. unfold q32. apply wrapS_small; unfold int_min, int_max; cbn; lia. Qed.
Lemma wrap16_small a : -32768 <= a <= 32767 -> wrapS 16 a = a.
Proof. intros Ha. apply wrapS_small; unfold int_min, int_max; cbn; lia. Qed.
Lemma s4_ok i k : (k < 4)%nat -> s4 i k = v i (4 * k)%nat + v i (4 * k + 1)%nat + v i (4 * k + 2)%nat + v i (4 * k + 3)%nat /\
  -512 <= s4 i k <= 508.
Proof.
  intros Hk. unfold s4. pose proof (Hv i (4 * k)%nat ltac:(lia)). pose proof (Hv i (4 * k + 1)%nat ltac:(lia)).
  pose proof (Hv i (4 * k + 2)%nat ltac:(lia)). pose proof (Hv i (4 * k + 3)%nat ltac:(lia)).
  rewrite !p16_small by lia. rewrite q32_small by lia. rewrite wrap16_small by lia. lia.
Qed.
Lemma s8_ok i k : (k < 2)%nat -> s8 i k = hsum (fun i j => if (8 * k <=? j)%nat && (j <? 8 * k + 8)%nat then v i j else 0) i /\
  -1024 <= s8 i k <= 1016.
Proof.
  intros Hk. unfold s8. destruct (s4_ok i (2 * k)%nat ltac:(lia)) as [E1 B1]. destruct (s4_ok i (2 * k + 1)%nat ltac:(lia)) as [E2 B2].
  rewrite q32_small by lia. split; [|lia]. rewrite E1, E2. unfold hsum.
  destruct k as [|[|k]]; [| |lia]; cbn [Nat.mul Nat.add Nat.leb Nat.ltb andb]; ring.
Qed.
Lemma s16_ok i : s8 i 1%nat + s8 i 0%nat = hsum v i /\ -2048 <= hsum v i <= 2032.
Proof.
  destruct (s8_ok i 0%nat ltac:(lia)) as [E0 B0]. destruct (s8_ok i 1%nat ltac:(lia)) as [E1 B1].
  assert (E : s8 i 1%nat + s8 i 0%nat = hsum v i).
  { rewrite E0, E1. unfold hsum. cbn [Nat.mul Nat.add Nat.leb Nat.ltb andb]. ring. }
  split; [exact E|lia].
Qed.

(* sums8_wide of two lines *)
Definition wide8 (x y : list Z) : list Z :=
  let sums4_wide x := msa_hadd_s 32 (msa_hadd_s 16 x x) (msa_hadd_s 16 x x) in
  let sums4 := msa_pckev_h (sums4_wide y) (sums4_wide x) in
  msa_hadd_s 32 sums4 sums4.
Lemma wide8_ok x y i j : x = map (v i) (seq 0 16) -> y = map (v j) (seq 0 16) ->
  wide8 x y = [s8 i 0; s8 i 1; s8 j 0; s8 j 1].
Proof.
  intros -> ->. unfold wide8, msa_pckev_h, as_signed, s8, s4, q32, p16. cbv zeta. unfold msa_hadd_s, odds, evens.
  cbn [map seq pairs map2 app Nat.mul Nat.add]. reflexivity.
Qed.

Lemma msa_sums4 (old : nat -> Z) (x : Z -> list Z) :
  (forall i, (i < 4)%nat -> x (Z.of_nat i) = map (v i) (seq 0 16)) ->
  let sums8 := msa_pckev_h (wide8 (x 2) (x 3)) (wide8 (x 0) (x 1)) in
  msa_addv_w (map old (seq 0 4)) (msa_hadd_s 32 sums8 sums8) = map (fun i => wrapS 32 (old i + hsum v i)) (seq 0 4).
Proof.
  intros Hx. cbv zeta.
  rewrite (wide8_ok (x 0) (x 1) 0 1 (Hx 0%nat ltac:(lia)) (Hx 1%nat ltac:(lia))).
  rewrite (wide8_ok (x 2) (x 3) 2 3 (Hx 2%nat ltac:(lia)) (Hx 3%nat ltac:(lia))).
  unfold msa_pckev_h, as_signed. cbn [map app].
  rewrite !wrap16_small by (match goal with |- _ <= s8 ?i ?k <= _ => destruct (s8_ok i k ltac:(lia)); lia end).
  unfold msa_hadd_s, msa_addv_w, odds, evens. cbn [pairs map2 map seq].
  assert (E : forall i, wrapS 32 (s8 i 1 + s8 i 0) = hsum v i).
  { intros i. destruct (s16_ok i) as [E B]. rewrite E. apply wrapS_small; unfold int_min, int_max; cbn; lia. }
  rewrite !E. reflexivity.
Qed.
Lemma msa_sums2 (x : Z -> list Z) :
  (forall i, (i < 2)%nat -> x (Z.of_nat i) = map (v i) (seq 0 16)) ->
  let sums16 := msa_hadd_s 64 (wide8 (x 0) (x 1)) (wide8 (x 0) (x 1)) in
  wrapS 32 (nth 0 sums16 0) = hsum v 0 /\ wrapS 32 (nth 1 sums16 0) = hsum v 1.
Proof.
  intros Hx. cbv zeta.
  rewrite (wide8_ok (x 0) (x 1) 0 1 (Hx 0%nat ltac:(lia)) (Hx 1%nat ltac:(lia))).
  unfold msa_hadd_s, odds, evens. cbn [pairs map2 nth].
  assert (E : forall i, wrapS 32 (wrapS 64 (s8 i 1 + s8 i 0)) = hsum v i).
  { intros i. destruct (s16_ok i) as [E B]. rewrite E.
    rewrite (wrapS_small 64) by (unfold int_min, int_max; cbn; lia). apply wrapS_small; unfold int_min, int_max; cbn; lia. }
  split; apply E.
Qed.
End Int8.

Lemma msa_PackInt8_correct m f src sw b g s :
  side_fmt_ok f -> sm_order src = SWidthMajor ->
  is_format 2 16 CWidthMajor FInt8 f || is_format 4 16 CWidthMajor FInt8 f = true -> sf_cells f = 1 ->
  pack_correct_at m f 16 (msa_PackInt8 m f) src sw b g s.
Proof.
  intros Hf Ho Hk Hc1 _ Hsw Hsd Hsrc Hd0 Hs1 Hm.
  assert (Hfmt : (sf_cw f = 2 \/ sf_cw f = 4) /\ sf_cd f = 16 /\ sf_order f = CWidthMajor /\ sf_kind f = FInt8).
  { apply Bool.orb_true_iff in Hk. destruct Hk as [E|E]; apply is_format_spec in E; tauto. }
  destruct Hfmt as (Ecw & Ecd & Eo & Es).
  assert (EW : sf_width f = sf_cw f) by (unfold sf_width; rewrite Hc1; lia).
  assert (Hz : sf_zp f = 128) by (unfold sf_zp; rewrite Es; reflexivity).
  assert (Hr : forall w d, 0 <= w < sf_width f -> 0 <= d < 16 -> 0 <= g w d <= 255).
  { intros w d Hw Hd. destruct (Hsrc w d Hw Hd) as [_ B]. unfold in_min in B. rewrite Es in B. lia. }
  unfold msa_PackInt8. cbv beta zeta.
  destruct (neon_lines_ok f src g Ho Hsrc (sf_cw f) ltac:(lia)) as (lines & El & Hl). rewrite El. cbn [bind].
  set (xl := fun i => msa_bnegi_b (lines i) 7).
  assert (Hx : forall i, 0 <= i < sf_cw f -> xl i = map (fun k => (g i (Z.of_nat k) - 128) mod 256) (seq 0 16)).
  { intros i Hi. unfold xl, msa_bnegi_b. rewrite Hl by assumption. unfold line. rewrite map_map.
    apply map_ext_in. intros k Hk'. apply in_seq in Hk'. change (2 ^ 7) with 0x80. apply lxor_sign, Hr; lia. }
  (* the signed values *)
  set (v := fun i k => if (Z.of_nat i <? sf_cw f) && (k <? 16)%nat then g (Z.of_nat i) (Z.of_nat k) - 128 else 0).
  assert (Hv : forall i k, (k < 16)%nat -> - 128 <= v i k <= 127).
  { intros i k Hk'. unfold v. destruct (Z.ltb_spec (Z.of_nat i) (sf_cw f)), (Nat.ltb_spec k 16); cbn [andb]; try lia.
    pose proof (Hr (Z.of_nat i) (Z.of_nat k) ltac:(lia) ltac:(lia)). lia. }
  assert (Hxv : forall i, Z.of_nat i < sf_cw f -> as_signed 8 (xl (Z.of_nat i)) = map (v i) (seq 0 16)).
  { intros i Hi. rewrite Hx by lia. unfold as_signed. rewrite map_map. apply map_ext_in. intros k Hk'. apply in_seq in Hk'.
    unfold v. replace ((Z.of_nat i <? sf_cw f) && (k <? 16)%nat) with true
      by (destruct (Nat.ltb_spec k 16); [replace (Z.of_nat i <? sf_cw f) with true by lia; reflexivity|lia]).
    apply sign_of_byte, Hr; lia. }
  set (lo := fun i => as_signed 8 (low 8 (xl i))). set (hi := fun i => as_signed 8 (high 8 (xl i))).
  assert (Hlo : forall i, Z.of_nat i < sf_cw f -> lo (Z.of_nat i) = map (v i) (seq 0 8)).
  { intros i Hi. change (seq 0 8) with (firstn 8 (seq 0 16)). rewrite <- firstn_map, <- Hxv by exact Hi.
    unfold lo, low, as_signed. rewrite <- firstn_map. reflexivity. }
  assert (Hhi : forall i, Z.of_nat i < sf_cw f -> hi (Z.of_nat i) = map (v i) (seq 8 8)).
  { intros i Hi. change (seq 8 8) with (skipn 8 (seq 0 16)). rewrite <- skipn_map, <- Hxv by exact Hi.
    unfold hi, high, as_signed. rewrite <- skipn_map. reflexivity. }
  assert (Hload : forall n, Z.of_nat n <= sf_cw f -> load (pk_sums b) sw n = Some (map (fun i => s (Z.of_nat i)) (seq 0 n))).
  { intros n Hn. apply load_ok. intros i Hi. apply Hs1. lia. }
  match goal with |- exists b', ?X = Some b' /\ _ => assert (E : X = int8_core f xl lo hi sw b) end.
  { unfold int8_core. cbv zeta. change (fun i => msa_bnegi_b (lines i) 7) with xl.
    destruct (for_step 0 (sf_cw f) 1 _ (pk_data b)) as [data|]; [|reflexivity]. cbn [bind].
    destruct Ecw as [E|E]; rewrite E.
    - change (2 =? 4) with false. cbv iota. rewrite !Hload by lia. cbn [bind].
      pose proof (msa_sums2 v Hv (fun i => as_signed 8 (xl i)) (fun i Hi => Hxv i ltac:(lia))) as [Q0 Q1].
      pose proof (int8_sums2 v Hv (fun i => s (Z.of_nat i)) lo hi (fun i Hi => Hlo i ltac:(lia)) (fun i Hi => Hhi i ltac:(lia))) as Q.
      cbv beta zeta in Q. rewrite Q.
      assert (N : forall i, (i < 2)%nat -> norm m 32 (s (Z.of_nat i) + hsum v i) = Some (wrapS 32 (s (Z.of_nat i) + hsum v i))).
      { intros i Hi. destruct m; [reflexivity|]. destruct Hm as [Hm|Hm]; [discriminate|]. specialize (Hm (Z.of_nat i) ltac:(lia)).
        pose proof (proj2 (s16_ok v Hv i)) as B. cbn [norm].
        assert (R : int_min 32 <= s (Z.of_nat i) + hsum v i <= int_max 32) by (unfold int_min, int_max; cbn; lia).
        replace (in_int 32 (s (Z.of_nat i) + hsum v i)) with true by (unfold in_int; lia).
        rewrite wrapS_small by (exact R || lia). reflexivity. }
      match goal with |- bind (bind (norm m 32 ?a) ?k) ?k2 = ?R =>
        change (bind (bind (norm m 32 (s (Z.of_nat 0) + wrapS 32 (nth 0 (msa_hadd_s 64 (wide8 (as_signed 8 (xl 0)) (as_signed 8 (xl 1)))
                                                                        (wide8 (as_signed 8 (xl 0)) (as_signed 8 (xl 1)))) 0))) k) k2 = R) end.
      rewrite Q0, N by lia. cbn [bind].
      match goal with |- bind (bind (norm m 32 ?a) ?k) ?k2 = ?R =>
        change (bind (bind (norm m 32 (s (Z.of_nat 1) + wrapS 32 (nth 1 (msa_hadd_s 64 (wide8 (as_signed 8 (xl 0)) (as_signed 8 (xl 1)))
                                                                        (wide8 (as_signed 8 (xl 0)) (as_signed 8 (xl 1)))) 0))) k) k2 = R) end.
      rewrite Q1, N by lia. reflexivity.
    - change (4 =? 4) with true. cbv iota. rewrite !Hload by lia. cbn [bind].
      pose proof (msa_sums4 v Hv (fun i => s (Z.of_nat i)) (fun i => as_signed 8 (xl i)) (fun i Hi => Hxv i ltac:(lia))) as Q'.
      pose proof (int8_sums4 v Hv (fun i => s (Z.of_nat i)) lo hi (fun i Hi => Hlo i ltac:(lia)) (fun i Hi => Hhi i ltac:(lia))) as Q.
      cbv beta zeta in Q, Q'. rewrite Q.
      match type of Q' with msa_addv_w ?o ?x = _ =>
        match goal with |- bind (store ?mm ?a ?l) ?k = ?R => change (bind (store mm a (msa_addv_w o x)) k = R) end end.
      rewrite Q'. reflexivity. }
  rewrite E. apply (int8_core_correct f xl lo hi src sw b g s); try assumption.
  - unfold sf_signed. rewrite Es. reflexivity.
  - rewrite Hz. exact Hx.
  - intros i Hi. unfold lo. rewrite Hx by exact Hi. unfold as_signed, low. rewrite firstn_map, map_map.
    change (firstn 8 (seq 0 16)) with (seq 0 8). rewrite Hz.
    apply map_ext_in. intros k Hk'. apply in_seq in Hk'. apply sign_of_byte, Hr; lia.
  - intros i Hi. unfold hi. rewrite Hx by exact Hi. unfold as_signed, high. rewrite skipn_map, map_map.
    change (skipn 8 (seq 0 16)) with (seq 8 8). rewrite Hz.
    apply map_ext_in. intros k Hk'. apply in_seq in Hk'. apply sign_of_byte, Hr; lia.
Qed.

Lemma msa_packer_correct m f : side_fmt_ok f -> (sf_cd f | 16) -> pack_correct m f 16 (msa_packer m f 16).
Proof.
  intros Hf Hcd src sw b g s.
  pose proof (Pack_correct m f 16 Hf ltac:(lia) Hcd src sw b g s) as HP.
  destruct (sm_order src) eqn:Ho.
  2: { refine (pack_at_ext m f 16 (Pack m f 16) _ src sw b g s _ HP); unfold msa_packer; rewrite Ho; reflexivity. }
  destruct (is_format 4 2 CDepthMajor FUint8 f) eqn:E1.
  { refine (pack_at_ext m f 16 (msa_Pack4x2 1 msa_depth_major_sum f 16) _ src sw b g s _ _);
    [unfold msa_packer; rewrite Ho, E1; reflexivity|apply msa_Pack4x2_correct; auto]. }
  destruct (is_format 4 2 CWidthMajor FUint8 f) eqn:E2.
  { refine (pack_at_ext m f 16 (msa_Pack4x2 2 msa_width_major_sum f 16) _ src sw b g s _ _);
    [unfold msa_packer; rewrite Ho, E1, E2; reflexivity|apply msa_Pack4x2_correct; auto]. }
  destruct ((is_format 2 16 CWidthMajor FInt8 f || is_format 4 16 CWidthMajor FInt8 f) && (sf_cells f =? 1)) eqn:E3.
  { refine (pack_at_ext m f 16 (msa_PackInt8 m f) _ src sw b g s _ _);
    [unfold msa_packer; rewrite Ho, E1, E2, E3; reflexivity|].
    apply Bool.andb_true_iff in E3. destruct E3 as [E3 E4]. apply msa_PackInt8_correct; try assumption. lia. }
  refine (pack_at_ext m f 16 (Pack m f 16) _ src sw b g s _ HP). unfold msa_packer. rewrite Ho, E1, E2, E3. reflexivity.
Qed.
