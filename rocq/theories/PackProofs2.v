From Verif Require Import Base BaseLemmas CommonModel CommonProofs PackModel PackSpec PackProofs.
From Verif Require Export PackBlock.

Section PackSide.
Variables (pk : packer) (m : ovf) (f : side_fmt) (kreg : Z) (p : side_params) (val : Z -> Z -> Z).
Hypothesis Hf : side_fmt_ok f.
Hypothesis Hreg : 0 < kreg.
Hypothesis Hcdreg : (sf_cd f | kreg).
Hypothesis Hp : sp_ok f kreg p.
Hypothesis Hval : forall w d, in_min f - sf_zp f <= val w d <= in_min f + 255 - sf_zp f.
Hypothesis Hpk : pack_correct m f kreg (pk m f kreg).
Hypothesis Hm : m = Wrap \/ 255 * sp_l2_depth p <= int_max 32.

Definition psum (w a b : Z) : Z := sumZ (val w) a b.

(* P w = how much of the depth of slice w has been packed *)
Definition DI (P : Z -> Z) (data : mem) : Prop :=
  (forall w d, 0 <= w < sp_l2_width p -> 0 <= d < P w -> data (packed_pos f p w d) = Some (byte (val w d))) /\
  (forall a, 0 <= a < sp_l2_width p * sp_l2_depth p -> exists v, data a = Some v /\ 0 <= v < 256).
Definition SI (P : Z -> Z) (sums : mem) : Prop :=
  forall w, 0 <= w < sp_l2_width p -> sums w = Some (wrapS 32 (psum w 0 (P w))).

Lemma DI_ext P P' data : (forall w, 0 <= w < sp_l2_width p -> P w = P' w) -> DI P data -> DI P' data.
Proof. intros E [A B]. split; [|exact B]. intros w d Hw Hd. apply A; [exact Hw|rewrite E by exact Hw; exact Hd]. Qed.
Lemma SI_ext P P' s : (forall w, 0 <= w < sp_l2_width p -> P w = P' w) -> SI P s -> SI P' s.
Proof. intros E A w Hw. rewrite <- E by exact Hw. apply A, Hw. Qed.

(* effect of the packer on the block starting at slice sw, depth K *)
Lemma Pack_spec b P sw K src :
  0 <= sw -> sw + sf_width f <= sp_l2_width p -> 0 <= K -> K + kreg <= sp_l2_depth p ->
  (forall w d, 0 <= w < sf_width f -> 0 <= d < kreg ->
     packed_pos f p (sw + w) (K + d) = pk_pos b + ci f w d) ->
  (forall w, 0 <= w < sp_l2_width p -> P w <= sp_l2_depth p) ->
  (forall w, sw <= w < sw + sf_width f -> P w = K) ->
  (sf_kind f = FInt8Inputs -> sm_order src = SWidthMajor) ->
  sm_width src = sf_width f -> sm_depth src = kreg ->
  (forall w d, 0 <= w < sf_width f -> 0 <= d < kreg ->
     sm_get src w d = Some (val (sw + w) (K + d) + sf_zp f)) ->
  DI P (pk_data b) -> SI P (pk_sums b) ->
  exists b', pk m f kreg src sw b = Some b' /\
    DI (fun w => if (sw <=? w) && (w <? sw + sf_width f) then K + kreg else P w) (pk_data b') /\
    SI (fun w => if (sw <=? w) && (w <? sw + sf_width f) then K + kreg else P w) (pk_sums b') /\
    pk_pos b' = pk_pos b + sf_width f * kreg.
Proof.
  intros Hsw HswW HK HKD Hpos HP HPk Hord Hsrcw Hsrcd Hsrc [DA DB] HSI.
  assert (Bnd : forall w, 0 <= w < sp_l2_width p -> Z.abs (psum w 0 K) <= 255 * K).
  { intros w Hw. unfold psum. pose proof (zp_cases f).
    destruct (sumZ_bound (val w) 0 K (-255) 255 HK) as [B1 B2]; [intros i _; specialize (Hval w i); lia|]. lia. }
  destruct (Hpk src sw b (fun w d => val (sw + w) (K + d) + sf_zp f) (fun w => wrapS 32 (psum (sw + w) 0 K)))
    as (b' & E & E1 & E2 & E3 & E4 & E5).
  - exact Hord.
  - exact Hsrcw.
  - exact Hsrcd.
  - intros w d Hw Hd. split; [apply Hsrc; assumption|]. specialize (Hval (sw + w) (K + d)). lia.
  - intros w d Hw Hd. rewrite run_index_ci, <- Hpos by assumption.
    destruct (DB (packed_pos f p (sw + w) (K + d))) as (v & Ev & _); [|eauto].
    apply (packed_pos_range f kreg p Hf Hcdreg Hp); lia.
  - intros w Hw. split; [rewrite HSI by lia; rewrite HPk by lia; reflexivity|].
    pose proof (wrapS_range 32 (psum (sw + w) 0 K) ltac:(lia)) as R. unfold int_min, int_max in R.
    change (2 ^ (32 - 1)) with (2 ^ 31) in R. lia.
  - destruct Hm as [H|H]; [left; exact H|right]. intros w Hw. specialize (Bnd (sw + w) ltac:(lia)).
    unfold int_max in H. change (2 ^ (32 - 1)) with (2 ^ 31) in H.
    rewrite wrapS_small; [lia|lia|]. unfold int_min, int_max. change (2 ^ (32 - 1)) with (2 ^ 31). lia.
  - exists b'. split; [exact E|]. split; [|split; [|exact E5]].
    + (* where position (w,d) lies *)
      assert (Loc : forall a, (exists w d, 0 <= w < sf_width f /\ 0 <= d < kreg /\ a = pk_pos b + run_index f w d) \/
        (forall w d, 0 <= w < sf_width f -> 0 <= d < kreg -> a <> pk_pos b + run_index f w d)).
      { intros a.
        destruct (existsb (fun w => existsb (fun d => a =? pk_pos b + run_index f w d)
          (map Z.of_nat (seq 0 (Z.to_nat kreg)))) (map Z.of_nat (seq 0 (Z.to_nat (sf_width f))))) eqn:Ex.
        - left. apply existsb_exists in Ex. destruct Ex as (w & Iw & Ex).
          apply existsb_exists in Ex. destruct Ex as (d & Id & Ex).
          apply in_map_iff in Iw. destruct Iw as (nw & <- & Iw). apply in_seq in Iw.
          apply in_map_iff in Id. destruct Id as (nd & <- & Id). apply in_seq in Id.
          exists (Z.of_nat nw), (Z.of_nat nd). lia.
        - right. intros w d Hw Hd Ea. apply not_true_iff_false in Ex. apply Ex.
          apply existsb_exists. exists w. split.
          { apply in_map_iff. exists (Z.to_nat w). split; [lia|]. apply in_seq. lia. }
          apply existsb_exists. exists d. split; [|apply Z.eqb_eq, Ea].
          apply in_map_iff. exists (Z.to_nat d). split; [lia|]. apply in_seq. lia. }
      split.
      * intros w d Hw Hd. destruct ((sw <=? w) && (w <? sw + sf_width f)) eqn:Ew.
        -- assert (Hin : 0 <= w - sw < sf_width f) by lia.
           destruct (Z.lt_ge_cases d K) as [Hlt|Hge].
           ++ rewrite E2; [apply DA; [exact Hw|rewrite HPk by lia; lia]|].
              intros w1 d1 Hw1 Hd1 Ea. rewrite run_index_ci, <- Hpos in Ea by assumption.
              apply (packed_pos_inj f kreg p Hf Hcdreg Hp) in Ea; lia.
           ++ replace w with (sw + (w - sw)) by lia. replace d with (K + (d - K)) by lia.
              rewrite Hpos by lia. rewrite <- run_index_ci, E1 by lia. f_equal.
              replace (val _ _ + sf_zp f - sf_zp f) with (val (sw + (w - sw)) (K + (d - K))) by lia. reflexivity.
        -- pose proof (HP w Hw). rewrite E2; [apply DA; assumption|].
           intros w1 d1 Hw1 Hd1 Ea. rewrite run_index_ci, <- Hpos in Ea by assumption.
           apply (packed_pos_inj f kreg p Hf Hcdreg Hp) in Ea; lia.
      * intros a Ha. destruct (Loc a) as [(w & d & Hw & Hd & ->)|Ho].
        -- rewrite E1 by assumption. eexists. split; [reflexivity|]. apply Z.mod_pos_bound. lia.
        -- rewrite E2 by exact Ho. apply DB, Ha.
    + intros w Hw. destruct ((sw <=? w) && (w <? sw + sf_width f)) eqn:Ew.
      * replace w with (sw + (w - sw)) at 1 by lia. rewrite E3 by lia. rewrite wrapS_add_l by lia.
        replace (sw + (w - sw)) with w by lia. do 2 f_equal. unfold psum.
        rewrite (sumZ_split (val w) 0 K (K + kreg)) by lia. f_equal.
        replace (sumZ (val w) K (K + kreg)) with (sumZ (val w) (0 + K) (kreg + K)) by (f_equal; lia).
        rewrite sumZ_shift. apply sumZ_ext. intros i Hi. rewrite (Z.add_comm i K). lia.
      * rewrite E4 by lia. apply HSI, Hw.
Qed.
End PackSide.
