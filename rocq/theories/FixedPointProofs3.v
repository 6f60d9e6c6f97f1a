(* FixedPointProofs3.v: the Newton-Raphson reciprocal helpers: no overflow,
   range and accuracy.  The two widths have the same proofs with other constants. *)
From Verif Require Import BaseLemmas FixedPointModel FixedPointSpec FixedPointProofs FixedPointProofs2.

(* (1/D)(n) error terms: nearest q n d means q d = n + t with |2 t| <= d *)
Lemma nearest_err q n d : nearest q n d -> exists t, q * d = n + t /\ 2 * Z.abs t <= d.
Proof. intros H. exists (q * d - n). split; [lia|exact H]. Qed.

Lemma abs_mul_le a b A B : Z.abs a <= A -> Z.abs b <= B -> Z.abs (a * b) <= A * B.
Proof. intros. rewrite Z.abs_mul. apply Z.mul_le_mono_nonneg; lia. Qed.

(* ---------------- 32 bits ---------------- *)
Lemma clamp32 z : clamp_int 32 z = Z.max (-2147483648) (Z.min 2147483647 z).
Proof.
  unfold clamp_int, clampZ. pows. change (- (2147483648)) with (-2147483648).
  destruct (Z.ltb_spec z (-2147483648)); [lia|]. destruct (Z.ltb_spec (2147483648 - 1) z); lia.
Qed.

Definition defect (h x : Z) : Z := 1152921504606846976 - h * x. (* 2^60 - h x *)

Lemma defect_step h x q p t s : 
  q * 2147483648 = h * x + t -> p * 2147483648 = x * (536870912 - q) + s ->
  1152921504606846976 * defect h (x + 4 * p) = defect h x * defect h x + h * x * t - 2147483648 * (h * s).
Proof.
  intros Hq Hp. unfold defect.
  assert (E : 1152921504606846976 * (h * (4 * p)) = 2147483648 * h * (p * 2147483648)) by ring.
  replace (1152921504606846976 * (1152921504606846976 - h * (x + 4 * p)))
    with (1152921504606846976 * (1152921504606846976 - h * x) - 1152921504606846976 * (h * (4 * p))) by ring.
  rewrite E, Hp.
  replace (2147483648 * h * (x * (536870912 - q) + s))
    with (1152921504606846976 * h * x - h * x * (q * 2147483648) + 2147483648 * (h * s)) by ring.
  rewrite Hq. ring.
Qed.

Lemma x_from_defect h x B : 1073741824 <= h <= 2147483647 -> Z.abs (defect h x) <= B -> B <= 72057594037927936 ->
  503316480 <= x <= 1140850688.
Proof. unfold defect. intros. split; nia. Qed.

Lemma newton_step32 m h x B : 1073741824 <= h <= 2147483647 ->
  Z.abs (defect h x) <= B -> 0 <= B <= 72057594037927936 ->
  exists x', newton_step m 32 h x = Some x' /\
    1152921504606846976 * Z.abs (defect h x') <=
      B * B + (1152921504606846976 + B) * 1073741824 + 4951760157141521099596496896.
Proof.
  intros Hh HD HB. pose proof (x_from_defect h x B Hh HD ltac:(lia)) as Bx.
  unfold newton_step.
  destruct (fmul32 h x) as [Nq Fq]; [unfold in32; lia|unfold in32; lia|lia|].
  assert (Hhx : 1080863910568919040 <= h * x <= 1224979098644774912) by (unfold defect in HD; lia).
  assert (Bq := nb31 503316480 570425344 _ _ _ Nq). specialize (Bq ltac:(lia) ltac:(lia)).
  set (q := FMul 32 h x) in *. clearbody q.
  change (One 32 2) with 536870912. unfold Sub. rewrite norm32 by lia. cbn [bind].
  destruct (fmul32 x (536870912 - q)) as [Np Fp]; [unfold in32; lia|unfold in32; lia|lia|].
  pose proof (mul_bounds x (536870912 - q) 1140850688 33554432 ltac:(lia) ltac:(lia)) as Pp.
  assert (Bp := nb31 (-17825792) 17825792 _ _ _ Np). specialize (Bp ltac:(lia) ltac:(lia)).
  set (p := FMul 32 x (536870912 - q)) in *. clearbody p.
  unfold Rescale. change (4 - 2) with 2.
  rewrite srmpot_pos_eq; [|right; reflexivity|apply fits32; lia|lia|lia]. cbn [bind].
  assert (EC : clamp_int 32 (p * 2 ^ 2) = 4 * p).
  { rewrite clamp32. change (2 ^ 2) with 4. lia. }
  rewrite EC. unfold Add. rewrite norm32 by lia. exists (x + 4 * p). split; [reflexivity|].
  destruct (nearest_err _ _ _ Nq) as [t [Et Ht]]. destruct (nearest_err _ _ _ Np) as [s [Es Hs]].
  pose proof (defect_step h x q p t s Et Es) as E.
  assert (A1 : Z.abs (defect h x * defect h x) <= B * B) by (apply abs_mul_le; assumption).
  assert (A2 : Z.abs (h * x * t) <= (1152921504606846976 + B) * 1073741824).
  { apply abs_mul_le; [unfold defect in HD; lia|lia]. }
  assert (A3 : Z.abs (h * s) <= 2147483648 * 1073741824) by (apply abs_mul_le; lia).
  rewrite <- (Z.abs_eq 1152921504606846976), <- Z.abs_mul, E by lia. lia.
Qed.

(* half of 1 + a, in units of 2^-31 *)
Definition half_den (a : Z) : Z := (a + 2147483648) / 2.

Lemma newton32 m a : 0 <= a <= 2147483647 ->
  exists x, newton_reciprocal m 32 a = Some x /\ Z.abs (defect (half_den a) x) <= 6442450944.
Proof.
  intros Ha. unfold newton_reciprocal.
  assert (EH : RoundingHalfSum 32 a (One 32 0) = half_den a).
  { change (One 32 0) with 2147483647. rewrite rhs_eq; [|lia|apply fits32; lia|apply fits32; lia].
    rewrite rnd_away_nonneg by lia. unfold rnd_up, half_den.
    replace (2 * (a + 2147483647) + 2) with ((a + 2147483648) * 2) by lia. change (2 * 2) with (2 * 2).
    rewrite Z.div_mul_cancel_r by lia. reflexivity. }
  rewrite EH. assert (Bh : 1073741824 <= half_den a <= 2147483647) by (unfold half_den; lia).
  set (h := half_den a) in *. clearbody h.
  rewrite !rci_eq by (first [right; reflexivity | apply fits32; lia]). cbn [bind].
  change (wrapS 32 (rnd_away 1515870810 (2 ^ (32 - 32)))) with 1515870810.
  change (wrapS 32 (rnd_away (-1010580540) (2 ^ (32 - 32)))) with (-1010580540).
  destruct (fmul32 h (-1010580540)) as [N0 F0]; [unfold in32; lia|unfold in32; lia|lia|].
  assert (B0 := nb31 (-1010580540) (-505290270) _ _ _ N0). specialize (B0 ltac:(lia) ltac:(lia)).
  set (q := FMul 32 h (-1010580540)) in *. clearbody q.
  unfold Add at 1. rewrite norm32 by lia. cbn [bind].
  destruct (nearest_err _ _ _ N0) as [t [Et Ht]].
  assert (D0 : Z.abs (defect h (1515870810 + q)) <= 72057594037927936).
  { unfold defect.
    assert (S1 : 0 <= (h - 1073741824) * (2147483648 - h)) by nia.
    assert (S2 : 0 <= (h - 1610612736) * (h - 1610612736)) by apply Z.square_nonneg.
    assert (S3 : Z.abs (h * t) <= 2147483648 * 1073741824) by (apply abs_mul_le; lia).
    assert (E : 2147483648 * (h * (1515870810 + q)) = 2147483648 * 1515870810 * h - 1010580540 * (h * h) + h * t).
    { replace (2147483648 * (h * (1515870810 + q))) with (2147483648 * 1515870810 * h + h * (q * 2147483648)) by ring.
      rewrite Et. ring. }
    lia. }
  destruct (newton_step32 m h _ _ Bh D0 ltac:(lia)) as [x1 [-> D1]]. cbn [bind].
  assert (D1' : Z.abs (defect h x1) <= 4503605063188481) by lia. clear D1.
  destruct (newton_step32 m h _ _ Bh D1' ltac:(lia)) as [x2 [-> D2]]. cbn [bind].
  assert (D2' : Z.abs (defect h x2) <= 17597601415199) by lia. clear D2.
  destruct (newton_step32 m h _ _ Bh D2' ltac:(lia)) as [x3 [-> D3]].
  exists x3. split; [reflexivity|]. lia.
Qed.

(* 1/(1+a): within 14 units of 2^-31, for every a in [0,1) *)
Lemma one_over32 m a : 0 <= a <= 2147483647 ->
  exists r, one_over_one_plus_x m 32 a = Some r /\ 0 <= r <= 2147483647 /\
    Z.abs (r * (2147483648 + a) - 4611686018427387904) <= 14 * (2147483648 + a).
Proof.
  intros Ha. unfold one_over_one_plus_x. destruct (newton32 m a Ha) as [x [-> D]]. cbn [bind].
  assert (Bh : 1073741824 <= half_den a <= 2147483647) by (unfold half_den; lia).
  pose proof (x_from_defect _ x _ Bh D ltac:(lia)) as Bx.
  unfold Rescale, ExactMulByPot. change (1 - 0) with 1.
  rewrite srmpot_pos_eq; [|right; reflexivity|apply fits32; lia|lia|lia].
  eexists. split; [reflexivity|].
  assert (HA : exists d, 2147483648 + a = 2 * half_den a + d /\ 0 <= d <= 1).
  { exists ((a + 2147483648) mod 2). unfold half_den. lia. }
  destruct HA as [d [Ed Hd]]. unfold defect in D.
  assert (Hxd : 0 <= x * d <= 1140850688) by nia.
  assert (X : Z.abs (x * 2 * (2147483648 + a) - 4611686018427387904) <= 28051505152).
  { rewrite Ed. replace (x * 2 * (2 * half_den a + d)) with (4 * (half_den a * x) + 2 * (x * d)) by ring. lia. }
  rewrite clamp32. change (2 ^ 1) with 2.
  destruct (Z.lt_ge_cases 2147483647 (x * 2)) as [Hs|Hs];
    [replace (Z.max _ _) with 2147483647 by lia|replace (Z.max _ _) with (x * 2) by lia].
  - split; [lia|]. assert (2147483648 * (2147483648 + a) <= x * 2 * (2147483648 + a)) by (apply Z.mul_le_mono_nonneg_r; lia). lia.
  - split; [lia|]. lia.
Qed.

(* (1-a)/(1+a): within 28 units of 2^-31 *)
Lemma one_minus_over32 m a : 0 <= a <= 2147483647 ->
  exists r, one_minus_x_over_one_plus_x m 32 a = Some r /\ -28 <= r <= 2147483647 /\
    Z.abs (r * (2147483648 + a) - 2147483648 * (2147483648 - a)) <= 28 * (2147483648 + a).
Proof.
  intros Ha. unfold one_minus_x_over_one_plus_x. destruct (newton32 m a Ha) as [x [-> D]]. cbn [bind].
  assert (Bh : 1073741824 <= half_den a <= 2147483647) by (unfold half_den; lia).
  pose proof (x_from_defect _ x _ Bh D ltac:(lia)) as Bx.
  change (One 32 2) with 536870912. unfold Sub. rewrite norm32 by lia. cbn [bind].
  unfold Rescale. change (2 - 0) with 2.
  rewrite srmpot_pos_eq; [|right; reflexivity|apply fits32; lia|lia|lia].
  eexists. split; [reflexivity|].
  assert (HA : exists d, 2147483648 + a = 2 * half_den a + d /\ 0 <= d <= 1).
  { exists ((a + 2147483648) mod 2). unfold half_den. lia. }
  destruct HA as [d [Ed Hd]]. unfold defect in D.
  assert (Hxd : 0 <= x * d <= 1140850688) by nia.
  assert (X : Z.abs (x * 2 * (2147483648 + a) - 4611686018427387904) <= 28051505152).
  { rewrite Ed. replace (x * 2 * (2 * half_den a + d)) with (4 * (half_den a * x) + 2 * (x * d)) by ring. lia. }
  assert (X2 : Z.abs ((x - 536870912) * 4 * (2147483648 + a) - 2147483648 * (2147483648 - a)) <= 56103010304).
  { replace ((x - 536870912) * 4 * (2147483648 + a) - 2147483648 * (2147483648 - a))
      with (2 * (x * 2 * (2147483648 + a) - 4611686018427387904)) by ring. lia. }
  assert (X3 : -28 <= (x - 536870912) * 4) by nia.
  rewrite clamp32. change (2 ^ 2) with 4.
  destruct (Z.lt_ge_cases 2147483647 ((x - 536870912) * 4)) as [Hs|Hs];
    [replace (Z.max _ _) with 2147483647 by lia|replace (Z.max _ _) with ((x - 536870912) * 4) by lia].
  - split; [lia|]. assert (2147483648 * (2147483648 + a) <= (x - 536870912) * 4 * (2147483648 + a)) by (apply Z.mul_le_mono_nonneg_r; lia). lia.
  - split; [lia|]. lia.
Qed.

(* ---------------- 16 bits ---------------- *)
Lemma clamp16 z : clamp_int 16 z = Z.max (-32768) (Z.min 32767 z).
Proof.
  unfold clamp_int, clampZ. pows. change (- (32768)) with (-32768).
  destruct (Z.ltb_spec z (-32768)); [lia|]. destruct (Z.ltb_spec (32768 - 1) z); lia.
Qed.

Definition defect16 (h x : Z) : Z := 268435456 - h * x. (* 2^28 - h x *)

Lemma defect16_step h x q p t s : 
  q * 32768 = h * x + t -> p * 32768 = x * (8192 - q) + s ->
  268435456 * defect16 h (x + 4 * p) = defect16 h x * defect16 h x + h * x * t - 32768 * (h * s).
Proof.
  intros Hq Hp. unfold defect16.
  assert (E : 268435456 * (h * (4 * p)) = 32768 * h * (p * 32768)) by ring.
  replace (268435456 * (268435456 - h * (x + 4 * p)))
    with (268435456 * (268435456 - h * x) - 268435456 * (h * (4 * p))) by ring.
  rewrite E, Hp.
  replace (32768 * h * (x * (8192 - q) + s))
    with (268435456 * h * x - h * x * (q * 32768) + 32768 * (h * s)) by ring.
  rewrite Hq. ring.
Qed.

Lemma x_from_defect16 h x B : 16384 <= h <= 32767 -> Z.abs (defect16 h x) <= B -> B <= 16777216 ->
  7680 <= x <= 17408.
Proof. unfold defect16. intros. split; nia. Qed.

Lemma newton_step16 m h x B : 16384 <= h <= 32767 ->
  Z.abs (defect16 h x) <= B -> 0 <= B <= 16777216 ->
  exists x', newton_step m 16 h x = Some x' /\
    268435456 * Z.abs (defect16 h x') <=
      B * B + (268435456 + B) * 16384 + 17592186044416.
Proof.
  intros Hh HD HB. pose proof (x_from_defect16 h x B Hh HD ltac:(lia)) as Bx.
  unfold newton_step.
  destruct (fmul16 h x) as [Nq Fq]; [unfold in16; lia|unfold in16; lia|lia|].
  assert (Hhx : 251658240 <= h * x <= 285212672) by (unfold defect16 in HD; lia).
  assert (Bq := nb31 7680 8704 _ _ _ Nq). specialize (Bq ltac:(lia) ltac:(lia)).
  set (q := FMul 16 h x) in *. clearbody q.
  change (One 16 2) with 8192. unfold Sub. rewrite norm16 by lia. cbn [bind].
  destruct (fmul16 x (8192 - q)) as [Np Fp]; [unfold in16; lia|unfold in16; lia|lia|].
  pose proof (mul_bounds x (8192 - q) 17408 512 ltac:(lia) ltac:(lia)) as Pp.
  assert (Bp := nb31 (-272) 272 _ _ _ Np). specialize (Bp ltac:(lia) ltac:(lia)).
  set (p := FMul 16 x (8192 - q)) in *. clearbody p.
  unfold Rescale. change (4 - 2) with 2.
  rewrite srmpot_pos_eq; [|left; reflexivity|apply fits16; lia|lia|lia]. cbn [bind].
  assert (EC : clamp_int 16 (p * 2 ^ 2) = 4 * p).
  { rewrite clamp16. change (2 ^ 2) with 4. lia. }
  rewrite EC. unfold Add. rewrite norm16 by lia. exists (x + 4 * p). split; [reflexivity|].
  destruct (nearest_err _ _ _ Nq) as [t [Et Ht]]. destruct (nearest_err _ _ _ Np) as [s [Es Hs]].
  pose proof (defect16_step h x q p t s Et Es) as E.
  assert (A1 : Z.abs (defect16 h x * defect16 h x) <= B * B) by (apply abs_mul_le; assumption).
  assert (A2 : Z.abs (h * x * t) <= (268435456 + B) * 16384).
  { apply abs_mul_le; [unfold defect16 in HD; lia|lia]. }
  assert (A3 : Z.abs (h * s) <= 32768 * 16384) by (apply abs_mul_le; lia).
  rewrite <- (Z.abs_eq 268435456), <- Z.abs_mul, E by lia. lia.
Qed.

(* half of 1 + a, in units of 2^-15 *)
Definition half_den16 (a : Z) : Z := (a + 32768) / 2.

Lemma newton16 m a : 0 <= a <= 32767 ->
  exists x, newton_reciprocal m 16 a = Some x /\ Z.abs (defect16 (half_den16 a) x) <= 98304.
Proof.
  intros Ha. unfold newton_reciprocal.
  assert (EH : RoundingHalfSum 16 a (One 16 0) = half_den16 a).
  { change (One 16 0) with 32767. rewrite rhs_eq; [|lia|apply fits16; lia|apply fits16; lia].
    rewrite rnd_away_nonneg by lia. unfold rnd_up, half_den16.
    replace (2 * (a + 32767) + 2) with ((a + 32768) * 2) by lia. change (2 * 2) with (2 * 2).
    rewrite Z.div_mul_cancel_r by lia. reflexivity. }
  rewrite EH. assert (Bh : 16384 <= half_den16 a <= 32767) by (unfold half_den16; lia).
  set (h := half_den16 a) in *. clearbody h.
  rewrite !rci_eq by (first [left; reflexivity | apply fits32; lia]). cbn [bind].
  change (wrapS 16 (rnd_away 1515870810 (2 ^ (32 - 16)))) with 23130.
  change (wrapS 16 (rnd_away (-1010580540) (2 ^ (32 - 16)))) with (-15420).
  destruct (fmul16 h (-15420)) as [N0 F0]; [unfold in16; lia|unfold in16; lia|lia|].
  assert (B0 := nb31 (-15420) (-7710) _ _ _ N0). specialize (B0 ltac:(lia) ltac:(lia)).
  set (q := FMul 16 h (-15420)) in *. clearbody q.
  unfold Add at 1. rewrite norm16 by lia. cbn [bind].
  destruct (nearest_err _ _ _ N0) as [t [Et Ht]].
  assert (D0 : Z.abs (defect16 h (23130 + q)) <= 16777216).
  { unfold defect16.
    assert (S1 : 0 <= (h - 16384) * (32768 - h)) by nia.
    assert (S2 : 0 <= (h - 24576) * (h - 24576)) by apply Z.square_nonneg.
    assert (S3 : Z.abs (h * t) <= 32768 * 16384) by (apply abs_mul_le; lia).
    assert (E : 32768 * (h * (23130 + q)) = 32768 * 23130 * h - 15420 * (h * h) + h * t).
    { replace (32768 * (h * (23130 + q))) with (32768 * 23130 * h + h * (q * 32768)) by ring.
      rewrite Et. ring. }
    lia. }
  destruct (newton_step16 m h _ _ Bh D0 ltac:(lia)) as [x1 [-> D1]]. cbn [bind].
  assert (D1' : Z.abs (defect16 h x1) <= 1131521) by lia. clear D1.
  destruct (newton_step16 m h _ _ Bh D1' ltac:(lia)) as [x2 [-> D2]]. cbn [bind].
  assert (D2' : Z.abs (defect16 h x2) <= 86759) by lia. clear D2.
  destruct (newton_step16 m h _ _ Bh D2' ltac:(lia)) as [x3 [-> D3]].
  exists x3. split; [reflexivity|]. lia.
Qed.

(* 1/(1+a): within 14 units of 2^-15, for every a in [0,1) *)
Lemma one_over16 m a : 0 <= a <= 32767 ->
  exists r, one_over_one_plus_x m 16 a = Some r /\ 0 <= r <= 32767 /\
    Z.abs (r * (32768 + a) - 1073741824) <= 14 * (32768 + a).
Proof.
  intros Ha. unfold one_over_one_plus_x. destruct (newton16 m a Ha) as [x [-> D]]. cbn [bind].
  assert (Bh : 16384 <= half_den16 a <= 32767) by (unfold half_den16; lia).
  pose proof (x_from_defect16 _ x _ Bh D ltac:(lia)) as Bx.
  unfold Rescale, ExactMulByPot. change (1 - 0) with 1.
  rewrite srmpot_pos_eq; [|left; reflexivity|apply fits16; lia|lia|lia].
  eexists. split; [reflexivity|].
  assert (HA : exists d, 32768 + a = 2 * half_den16 a + d /\ 0 <= d <= 1).
  { exists ((a + 32768) mod 2). unfold half_den16. lia. }
  destruct HA as [d [Ed Hd]]. unfold defect16 in D.
  assert (Hxd : 0 <= x * d <= 17408) by nia.
  assert (X : Z.abs (x * 2 * (32768 + a) - 1073741824) <= 428032).
  { rewrite Ed. replace (x * 2 * (2 * half_den16 a + d)) with (4 * (half_den16 a * x) + 2 * (x * d)) by ring. lia. }
  rewrite clamp16. change (2 ^ 1) with 2.
  destruct (Z.lt_ge_cases 32767 (x * 2)) as [Hs|Hs];
    [replace (Z.max _ _) with 32767 by lia|replace (Z.max _ _) with (x * 2) by lia].
  - split; [lia|]. assert (32768 * (32768 + a) <= x * 2 * (32768 + a)) by (apply Z.mul_le_mono_nonneg_r; lia). lia.
  - split; [lia|]. lia.
Qed.

(* (1-a)/(1+a): within 28 units of 2^-15 *)
Lemma one_minus_over16 m a : 0 <= a <= 32767 ->
  exists r, one_minus_x_over_one_plus_x m 16 a = Some r /\ -28 <= r <= 32767 /\
    Z.abs (r * (32768 + a) - 32768 * (32768 - a)) <= 28 * (32768 + a).
Proof.
  intros Ha. unfold one_minus_x_over_one_plus_x. destruct (newton16 m a Ha) as [x [-> D]]. cbn [bind].
  assert (Bh : 16384 <= half_den16 a <= 32767) by (unfold half_den16; lia).
  pose proof (x_from_defect16 _ x _ Bh D ltac:(lia)) as Bx.
  change (One 16 2) with 8192. unfold Sub. rewrite norm16 by lia. cbn [bind].
  unfold Rescale. change (2 - 0) with 2.
  rewrite srmpot_pos_eq; [|left; reflexivity|apply fits16; lia|lia|lia].
  eexists. split; [reflexivity|].
  assert (HA : exists d, 32768 + a = 2 * half_den16 a + d /\ 0 <= d <= 1).
  { exists ((a + 32768) mod 2). unfold half_den16. lia. }
  destruct HA as [d [Ed Hd]]. unfold defect16 in D.
  assert (Hxd : 0 <= x * d <= 17408) by nia.
  assert (X : Z.abs (x * 2 * (32768 + a) - 1073741824) <= 428032).
  { rewrite Ed. replace (x * 2 * (2 * half_den16 a + d)) with (4 * (half_den16 a * x) + 2 * (x * d)) by ring. lia. }
  assert (X2 : Z.abs ((x - 8192) * 4 * (32768 + a) - 32768 * (32768 - a)) <= 856064).
  { replace ((x - 8192) * 4 * (32768 + a) - 32768 * (32768 - a))
      with (2 * (x * 2 * (32768 + a) - 1073741824)) by ring. lia. }
  assert (X3 : -28 <= (x - 8192) * 4) by nia.
  rewrite clamp16. change (2 ^ 2) with 4.
  destruct (Z.lt_ge_cases 32767 ((x - 8192) * 4)) as [Hs|Hs];
    [replace (Z.max _ _) with 32767 by lia|replace (Z.max _ _) with ((x - 8192) * 4) by lia].
  - split; [lia|]. assert (32768 * (32768 + a) <= (x - 8192) * 4 * (32768 + a)) by (apply Z.mul_le_mono_nonneg_r; lia). lia.
  - split; [lia|]. lia.
Qed.


Theorem one_over_ok m w a : w1632 w -> 0 <= a <= int_max w ->
  exists r, one_over_one_plus_x m w a = Some r /\ 0 <= r <= One w 0 /\
    Z.abs (r * (2 ^ (w - 1) + a) - 2 ^ (w - 1) * 2 ^ (w - 1)) <= 14 * (2 ^ (w - 1) + a).
Proof.
  intros [-> | ->] Ha.
  - destruct (one_over16 m a) as [r H]; [cbn in Ha; lia|]. exists r. exact H.
  - destruct (one_over32 m a) as [r H]; [cbn in Ha; lia|]. exists r. exact H.
Qed.

Theorem one_minus_over_ok m w a : w1632 w -> 0 <= a <= int_max w ->
  exists r, one_minus_x_over_one_plus_x m w a = Some r /\ -28 <= r <= One w 0 /\
    Z.abs (r * (2 ^ (w - 1) + a) - 2 ^ (w - 1) * (2 ^ (w - 1) - a)) <= 28 * (2 ^ (w - 1) + a).
Proof.
  intros [-> | ->] Ha.
  - destruct (one_minus_over16 m a) as [r H]; [cbn in Ha; lia|]. exists r. exact H.
  - destruct (one_minus_over32 m a) as [r H]; [cbn in Ha; lia|]. exists r. exact H.
Qed.

(* the result is not always in [0,1]: on the largest x it is negative *)
Theorem one_minus_over_negative_refuted : exists a r,
  0 <= a <= int_max 32 /\ one_minus_x_over_one_plus_x Trap 32 a = Some r /\ r < 0.
Proof. exists 2147483647, (-8). split; [cbn; lia|]. split; [vm_compute; reflexivity|lia]. Qed.
