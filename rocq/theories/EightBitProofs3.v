(* EightBitProofs3.v: concurrent callers of the EightBitIntGemm interface. *)
From Coq Require Import SpecFloat Permutation Relation_Operators.
From Verif Require Import Base BaseLemmas CommonModel PackModel GemmSpec FixedPointModel FixedPointSpec FixedPointProofs ComputeModel KernelSpec KernelProofs
  OutputModel OutputSpec OutputProofs UnpackModel GemmModel GemmContract GemmProofs3 GemmProofs4 GemmProofs5 GemmExample
  EightBitModel EightBitSpec EightBitProofs EightBitProofs2.

Definition same (M M' : memories) : Prop :=
  (forall b i, bytes M' b i = bytes M b i) /\ (forall b i, floats M' b i = floats M b i).
Lemma same_refl M : same M M.
Proof. split; reflexivity. Qed.
Lemma same_sym M M' : same M M' -> same M' M.
Proof. intros [A B]. split; intros; symmetry; auto. Qed.
Lemma same_trans M M' M'' : same M M' -> same M' M'' -> same M M''.
Proof. intros [A B] [C D]. split; intros; [rewrite C; apply A|rewrite D; apply B]. Qed.

Lemma product_same x M M' r c : same M M' -> product x M' r c = product x M r c.
Proof. intros [A _]. unfold product, byte_at. apply sumZ_ext. intros d _. rewrite !A. reflexivity. Qed.

Lemma effect_same c M M' N N' : same M M' -> same N N' -> effect c M N -> effect c M' N'.
Proof.
  intros HM HN. pose proof HM as [MB MF]. pose proof HN as [NB NF]. destruct c as [x off mult shift|x scale|n|]; cbn [effect].
  - intros (U & B & F). split; [|split].
    + destruct (x_k x =? 0).
      * intros i. rewrite NB, MB. apply U.
      * destruct U as [U1 U2]. split.
        -- intros r k Hr Hk. rewrite NB, U1 by assumption. unfold u8_result. rewrite (product_same x M M') by exact HM. reflexivity.
        -- intros i Hi. rewrite NB, MB. apply U2. exact Hi.
    + intros b i Hne. rewrite NB, MB. apply B. exact Hne.
    + intros b i. rewrite NF, MF. apply F.
  - intros (U & B & F). split; [|split].
    + destruct U as [U1 U2]. split.
      * intros r k Hr Hk. rewrite NF, U1 by assumption. unfold f32_result. rewrite (product_same x M M') by exact HM. reflexivity.
      * intros i Hi. rewrite NF, MF. apply U2. exact Hi.
    + intros b i Hne. rewrite NF, MF. apply B. exact Hne.
    + intros b i. rewrite NB, MB. apply F.
  - intros [B F]. split; intros b i; [rewrite NB, MB; apply B|rewrite NF, MF; apply F].
  - intros [B F]. split; intros b i; [rewrite NB, MB; apply B|rewrite NF, MF; apply F].
Qed.
Lemma writes_det {V} x (out : Z -> Z -> V) before after after' : writes x out before after -> writes x out before after' -> forall i, after i = after' i.
Proof.
  intros [A1 A2] [B1 B2] i. destruct (view_dec x i) as [(r & c & Hr & Hc & ->)|Hn].
  - rewrite A1, B1 by assumption. reflexivity.
  - rewrite A2, B2 by exact Hn. reflexivity.
Qed.
Lemma effect_det c M N N' : effect c M N -> effect c M N' -> same N N'.
Proof.
  destruct c as [x off mult shift|x scale|n|]; cbn [effect].
  - intros (U & B & F) (U' & B' & F'). split; intros b i; [|rewrite F, F'; reflexivity].
    destruct (Nat.eq_dec b (fst (x_c x))) as [->|Hne]; [|rewrite B, B' by exact Hne; reflexivity].
    destruct (x_k x =? 0); [rewrite U, U'; reflexivity|]. exact (writes_det x _ _ _ _ U' U i).
  - intros (U & B & F) (U' & B' & F'). split; intros b i; [rewrite F, F'; reflexivity|].
    destruct (Nat.eq_dec b (fst (x_c x))) as [->|Hne]; [|rewrite B, B' by exact Hne; reflexivity].
    exact (writes_det x _ _ _ _ U' U i).
  - intros [A B] [A' B']. split; intros b i; [rewrite A, A'; reflexivity|rewrite B, B'; reflexivity].
  - intros [A B] [A' B']. split; intros b i; [rewrite A, A'; reflexivity|rewrite B, B'; reflexivity].
Qed.
Lemma serial_same l : forall M M' N N', same M M' -> same N N' -> serial l M N -> serial l M' N'.
Proof.
  induction l as [|c t IH]; intros M M' N N' HM HN.
  - cbn [serial]. intros H. eapply same_trans; [apply same_sym; exact HM|]. eapply same_trans; [exact H|exact HN].
  - intros (M1 & E & S). exists M1. split; [eapply effect_same; [exact HM|apply same_refl|exact E]|].
    eapply IH; [apply same_refl|exact HN|exact S].
Qed.
Lemma serial_snoc l c : forall M N N', serial l M N -> effect c N N' -> serial (l ++ [c]) M N'.
Proof.
  induction l as [|d t IH]; intros M N N' S E; cbn [app].
  - exists N'. split; [eapply effect_same; [apply same_sym; exact S|apply same_refl|exact E]|apply same_refl].
  - destruct S as (M1 & E1 & S). exists M1. split; [exact E1|]. eapply IH; eassumption.
Qed.
Lemma serial_det l : forall M N N', serial l M N -> serial l M N' -> same N N'.
Proof.
  induction l as [|c t IH]; intros M N N'.
  - cbn [serial]. intros A B. eapply same_trans; [apply same_sym; exact A|exact B].
  - intros (M1 & E & S) (M1' & E' & S'). eapply IH; [exact S|].
    eapply serial_same; [apply same_sym; exact (effect_det c M M1 M1' E E')|apply same_refl|exact S'].
Qed.
Lemma serial_gemms l : forall M N, serial l M N -> serial (filter is_gemm l) M N.
Proof.
  induction l as [|c t IH]; intros M N; [auto|]. intros (M1 & E & S). cbn [filter]. destruct (is_gemm c) eqn:G.
  - exists M1. split; [exact E|]. apply IH. exact S.
  - apply IH. eapply serial_same; [|apply same_refl|exact S]. apply same_sym. destruct c; try discriminate; exact E.
Qed.

Lemma serial_result_unique l l' M N N' : filter is_gemm l = filter is_gemm l' -> serial l M N -> serial l' M N' -> same N N'.
Proof. intros E S S'. apply serial_gemms in S. apply serial_gemms in S'. rewrite <- E in S'. eapply serial_det; eassumption. Qed.

(* ------------------------------------------------------------------ *)
Section Sys.
Variables (e : env) (settings : Z -> Prop) (M0 : memories) (prog : nat -> list call).
Hypothesis He : env_ok e.
Hypothesis H1 : settings 1.
Hypothesis Hcalls : forall t c, In c (prog t) -> call_ok e settings M0 c.

Definition like_initial (M : memories) : Prop :=
  holds_bytes M /\ (forall b i, bytes M b i <> None <-> bytes M0 b i <> None) /\ (forall b i, floats M b i <> None <-> floats M0 b i <> None).

Lemma args_ok_like M x : like_initial M -> args_ok e settings M0 x -> args_ok e settings M x.
Proof.
  intros (_ & A & _) [S0 S1 S2 S3 S4 S5 S6]. constructor; try assumption.
  - intros r d Hr Hd. apply A. apply S3; assumption.
  - intros d c Hd Hc. apply A. apply S4; assumption.
Qed.
Lemma call_ok_like M c : like_initial M -> call_ok e settings M0 c -> call_ok e settings M c.
Proof.
  intros HM. pose proof HM as (_ & A & B). destruct c as [x off mult shift|x scale|n|]; cbn [call_ok].
  - intros (Ho & Hc & R). split; [apply args_ok_like; assumption|]. split; [|exact R]. intros r c Hr Hk. apply A. apply Hc; assumption.
  - intros (Ho & Hk & Hc & R). split; [apply args_ok_like; assumption|]. split; [exact Hk|]. split; [|exact R].
    intros r c Hr Hkk. apply B. apply Hc; assumption.
  - auto.
  - auto.
Qed.
Lemma effect_like c M N : call_ok e settings M c -> like_initial M -> effect c M N -> like_initial N.
Proof.
  intros Hc (HB & A & B). destruct c as [x off mult shift|x scale|n|]; cbn [effect].
  - intros (U & EB & EF). destruct Hc as (_ & Hal & _). 
    assert (X : forall b i, bytes N b i = bytes M b i \/ (exists v, bytes N b i = Some v /\ 0 <= v <= 255 /\ bytes M b i <> None)).
    { intros b i. destruct (Nat.eq_dec b (fst (x_c x))) as [->|Hne]; [|left; apply EB; exact Hne].
      destruct (x_k x =? 0); [left; apply U|]. destruct U as [U1 U2]. destruct (view_dec x i) as [(r & c & Hr & Hk & ->)|Hn]; [right|left; apply U2; exact Hn].
      rewrite U1 by assumption. eexists. split; [reflexivity|]. split; [|apply Hal; assumption]. unfold u8_result, clampZ.
      match goal with |- context [?v <? 0] => destruct (v <? 0) eqn:E1; [lia|]; destruct (255 <? v) eqn:E2; lia end. }
    split; [|split].
    + intros b i v Hv. destruct (X b i) as [E|(v' & E & Hr & _)]; [rewrite E in Hv; apply (HB b i v Hv)|]. rewrite E in Hv. injection Hv as <-. exact Hr.
    + intros b i. rewrite <- A. destruct (X b i) as [E|(v' & E & _ & Hn)]; [rewrite E; tauto|]. rewrite E. split; [intros _; exact Hn|discriminate].
    + intros b i. rewrite EF. apply B.
  - intros (U & EF & EB). destruct Hc as (_ & _ & Hal & _).
    split; [|split].
    + intros b i v. rewrite EB. apply HB.
    + intros b i. rewrite EB. apply A.
    + intros b i. rewrite <- B. destruct (Nat.eq_dec b (fst (x_c x))) as [->|Hne]; [|rewrite EF by exact Hne; tauto].
      destruct U as [U1 U2]. destruct (view_dec x i) as [(r & c & Hr & Hk & ->)|Hn]; [|rewrite U2 by exact Hn; tauto].
      rewrite U1 by assumption. split; [intros _; apply Hal; assumption|discriminate].
  - intros [EB EF]. split; [|split]; intros b i; [intros v|..]; rewrite ?EB, ?EF; [apply HB|apply A|apply B].
  - intros [EB EF]. split; [|split]; intros b i; [intros v|..]; rewrite ?EB, ?EF; [apply HB|apply A|apply B].
Qed.

Definition sys_inv (s : sys) : Prop :=
  (forall t, calls_of t (s_order s) ++ s_prog s t = prog t) /\
  match s_lock s with
  | None => lib_ok settings (s_world s) /\ like_initial (client (s_world s)) /\ serial (map snd (s_order s)) M0 (client (s_world s))
  | Some (t, q) => exists o c M, s_order s = o ++ [(t, c)] /\ serial (map snd o) M0 M /\ like_initial M /\
      call_ok e settings M c /\ body_inv settings c M (s_world s) q
  end.

Lemma calls_of_snoc t t' c o : calls_of t (o ++ [(t', c)]) = calls_of t o ++ (if Nat.eqb t' t then [c] else []).
Proof. unfold calls_of. rewrite filter_app, map_app. cbn [filter fst]. destruct (Nat.eqb t' t); reflexivity. Qed.

Lemma sys_step_inv s s' : sys_inv s -> sys_step e s s' -> sys_inv s'.
Proof.
  intros [HO HI] St. destruct St as [w p o t c rest Hp|w q w' q' p o t Hb|w p o t]; cbn [s_lock s_order s_prog s_world] in *.
  - destruct HI as (HL & HK & HS). split; cbn [s_lock s_order s_prog s_world].
    + intros t'. rewrite calls_of_snoc. rewrite <- (HO t'). unfold set_buf. destruct (Nat.eqb_spec t t') as [->|Hne].
      * rewrite Nat.eqb_refl, Hp, <- app_assoc. reflexivity.
      * destruct (Nat.eqb_spec t' t); [congruence|]. rewrite app_nil_r. reflexivity.
    + exists o, c, (client w). split; [reflexivity|]. split; [exact HS|]. split; [exact HK|]. split.
      * apply call_ok_like; [exact HK|]. apply (Hcalls t). rewrite <- (HO t), Hp. apply in_or_app. right. left. reflexivity.
      * split; [exact HL|]. split; reflexivity.
  - destruct HI as (o' & c & M & Eo & HS & HK & Hc & HB). split; [exact HO|]. exists o', c, M. split; [exact Eo|]. split; [exact HS|]. split; [exact HK|].
    split; [exact Hc|]. eapply body_ok; try eassumption. apply HK.
  - destruct HI as (o' & c & M & Eo & HS & HK & Hc & HL & HE). split; [exact HO|]. cbn [s_lock s_order s_prog s_world]. split; [exact HL|]. split.
    + eapply effect_like; eassumption.
    + rewrite Eo, map_app. cbn [map snd]. eapply serial_snoc; eassumption.
Qed.

Variable w0 : world.
Hypothesis HM0 : client w0 = M0.
Hypothesis Hw0 : lib_ok settings w0.
Hypothesis Hb0 : holds_bytes M0.

Lemma sys_reach s : sys_steps e (mk_sys w0 None prog []) s -> sys_inv s.
Proof.
  intros H. remember (mk_sys w0 None prog []) as s0 eqn:E. induction H as [s|s1 s2 s3 H IH St].
  - subst s. split; [reflexivity|]. cbn [s_lock s_order s_world map]. split; [exact Hw0|]. rewrite HM0. split; [split; [exact Hb0|split; tauto]|apply same_refl].
  - eapply sys_step_inv; [apply IH; exact E|exact St].
Qed.

Lemma sys_serializable s : sys_steps e (mk_sys w0 None prog []) s ->
  (forall t, calls_of t (s_order s) ++ s_prog s t = prog t) /\
  match s_lock s with
  | None => serial (map snd (s_order s)) M0 (client (s_world s))
  | Some (t, q) => q <> PCrash /\ exists o c M, s_order s = o ++ [(t, c)] /\ serial (map snd o) M0 M /\
      changes_only c M (client (s_world s)) /\ (q = PReturn -> effect c M (client (s_world s)))
  end.
Proof.
  intros H. destruct (sys_reach s H) as [HO HI]. split; [exact HO|]. destruct (s_lock s) as [[t q]|].
  - destruct HI as (o & c & M & Eo & HS & HK & Hc & HB). split; [intros ->; exact (proj2 HB)|]. exists o, c, M. split; [exact Eo|]. split; [exact HS|].
    split; [eapply body_changes; exact HB|]. intros ->. exact (proj2 HB).
  - exact (proj2 (proj2 HI)).
Qed.
Lemma sys_no_deadlock s t : sys_steps e (mk_sys w0 None prog []) s ->
  s_prog s t <> [] \/ s_lock s <> None -> exists s', sys_step e s s'.
Proof.
  intros H Hne. destruct (sys_reach s H) as [_ HI]. destruct s as [w lk p o]. cbn [s_lock s_prog s_order s_world] in *. destruct lk as [[u q]|].
  - destruct HI as (o' & c & M & _ & _ & _ & _ & HB). destruct (body_progress e settings c M w q HB) as [->|(w' & q' & X)].
    + eexists. apply ss_release.
    + eexists. apply ss_run. exact X.
  - destruct Hne as [Hne|]; [|congruence]. destruct (p t) as [|c rest] eqn:E; [congruence|]. eexists. eapply ss_acquire. exact E.
Qed.
End Sys.

(* every execution ends *)
Definition stops (e : env) (s : sys) : Prop := Acc (fun b a => sys_step e a b) s.
Definition weight (s : stores) : nat := fold_right (fun ph n => S (length (concat ph) + n)) O s.

Section Stop.
Variable e : env.
Variables (p : nat -> list call) (o : list (nat * call)).
Hypothesis Hfree : forall w, stops e (mk_sys w None p o).
Lemma stops_return w t : stops e (mk_sys w (Some (t, PReturn)) p o).
Proof.
  constructor. intros s' St. inversion St as [|? ? ? ? ? ? ? Hb|]; subst; [inversion Hb|]. apply Hfree.
Qed.
Lemma stops_crash w t : stops e (mk_sys w (Some (t, PCrash)) p o).
Proof. constructor. intros s' St. inversion St as [|? ? ? ? ? ? ? Hb|]; subst. inversion Hb. Qed.
Lemma stops_or {A} (r : option A) ok w t : (forall a, stops e (mk_sys (fst (ok a)) (Some (t, snd (ok a))) p o)) ->
  forall w' q', crash_or r ok w = (w', q') -> stops e (mk_sys w' (Some (t, q')) p o).
Proof.
  intros H w' q'. unfold crash_or. destruct r as [a|].
  - intros E. specialize (H a). rewrite E in H. exact H.
  - intros [= <- <-]. apply stops_crash.
Qed.
Ltac stop_step := constructor; let s' := fresh in let St := fresh in intros s' St;
  inversion St as [|? ? ? ? ? ? ? Hb|]; subst; clear St; inversion Hb; subst; clear Hb.
Lemma stops_convert x sc t l : forall w, stops e (mk_sys w (Some (t, PConvert x sc l)) p o).
Proof.
  induction l as [|i l IH]; intros w; stop_step.
  - apply stops_return.
  - eapply stops_or; [|eauto]. intros a. apply IH.
Qed.
Lemma concat_len ls1 (a : Z * Z) l ls2 : length (concat (ls1 ++ (a :: l) :: ls2)) = S (length (concat (ls1 ++ l :: ls2))).
Proof. rewrite !concat_app. cbn [concat app length]. rewrite !app_length. cbn [length]. rewrite ?app_length. lia. Qed.
Lemma stops_store c t n : forall s w, (weight s <= n)%nat -> stops e (mk_sys w (Some (t, PStore c s)) p o).
Proof.
  induction n as [|n IH]; intros s w Hn; stop_step.
  - unfold weight in *; cbn [fold_right] in *; lia.
  - unfold weight in *; cbn [fold_right] in *; lia.
  - destruct c as [x off mult shift|x scale|k|]; [apply stops_return|apply stops_convert|apply stops_return|apply stops_return].
  - eapply stops_or; [|eauto]. intros w2. apply IH. cbn [fst snd]. unfold weight in *. cbn [fold_right] in *. rewrite concat_len in Hn. lia.
  - apply IH. unfold weight in *; cbn [fold_right] in *; lia.
  - destruct c as [x off mult shift|x scale|k|]; [apply stops_return|apply stops_convert|apply stops_return|apply stops_return].
Qed.
Lemma stops_gemm x sc t w : stops e (mk_sys w (Some (t, PGemm x sc)) p o).
Proof. stop_step. eapply stops_or; [|eauto]. intros s. eapply stops_store. apply Nat.le_refl. Qed.
Lemma stops_scratch x sc t w : stops e (mk_sys w (Some (t, PScratch x sc)) p o).
Proof. stop_step. eapply stops_or; [|eauto]. intros s. apply stops_gemm. Qed.
Lemma stops_start c t w : stops e (mk_sys w (Some (t, PStart c)) p o).
Proof.
  stop_step.
  - eapply stops_or; [|eauto]. intros s. eapply stops_store. apply Nat.le_refl.
  - apply stops_scratch.
  - apply stops_return.
  - apply stops_return.
Qed.
End Stop.

Fixpoint remaining (p : nat -> list call) (N : nat) : nat := match N with O => O | S n => (remaining p n + length (p n))%nat end.
Lemma remaining_set p t rest N : (t < N)%nat -> (length rest < length (p t))%nat -> (remaining (set_buf p t rest) N < remaining p N)%nat.
Proof.
  assert (Hle : forall N, (length rest < length (p t))%nat -> (remaining (set_buf p t rest) N <= remaining p N)%nat).
  { intros n Hl. induction n as [|n IH]; [reflexivity|]. cbn [remaining]. unfold set_buf at 2. destruct (Nat.eqb_spec n t); subst; lia. }
  intros Ht Hl. induction N as [|N IH]; [lia|]. cbn [remaining]. unfold set_buf at 2. destruct (Nat.eqb_spec N t) as [->|Hne].
  - specialize (Hle t Hl). lia.
  - assert (t < N)%nat by lia. specialize (IH ltac:(assumption)). lia.
Qed.
Lemma sys_stops e N : forall n p o w, (forall t, (N <= t)%nat -> p t = []) -> (remaining p N <= n)%nat -> stops e (mk_sys w None p o).
Proof.
  induction n as [|n IH]; intros p o w Hz Hn; constructor; intros s' St; inversion St as [? ? ? t c rest Hp| |]; subst.
  - assert (t < N)%nat by (destruct (Nat.lt_ge_cases t N); [assumption|rewrite Hz in Hp by assumption; discriminate]).
    pose proof (remaining_set p t rest N ltac:(assumption)). rewrite Hp in *. cbn [length] in *. lia.
  - assert (Ht : (t < N)%nat) by (destruct (Nat.lt_ge_cases t N); [assumption|rewrite Hz in Hp by assumption; discriminate]).
    pose proof (remaining_set p t rest N Ht) as Hr. rewrite Hp in Hr. cbn [length] in Hr. specialize (Hr ltac:(lia)).
    apply stops_start. intros w'. apply IH; [|lia]. intros u Hu. unfold set_buf. destruct (Nat.eqb_spec u t); [lia|]. apply Hz. exact Hu.
Qed.
