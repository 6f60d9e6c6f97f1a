(* AllocatorSpec.v: what the allocator promises, stated over the histories of
   an allocator: what was reserved since the last Decommit (live), the handles
   given out before it (stale), and the number k of Decommits so far. *)
From Verif Require Import Base AllocatorModel.

Definition grant : Type := handle * type_id * Z.

(* a request whose size in bytes is at most 2^60 *)
Definition modest (t : type_id) (n : Z) : Prop := 0 <= n /\ n * type_size t <= 2 ^ 60.

(* what the operating system promises: nullptr, or a 64-byte aligned block
   whose end is an address too (a pointer past the end of a block is valid) *)
Definition os_sound (os : Z -> Z) : Prop :=
  forall size, 0 <= size < 2 ^ 64 ->
    os size = 0 \/ (0 < os size /\ (64 | os size) /\ os size + size < 2 ^ 64).
Definition os_never_fails (os : Z -> Z) (limit : Z) : Prop := forall size, 0 < size <= limit -> os size <> 0.

Inductive history : list grant -> list handle -> Z -> alloc -> Prop :=
| hist_new : history [] [] 0 new_alloc
| hist_reserve live stale k a t n h a' :
    history live stale k a -> modest t n -> Reserve t n a = Some (h, a') ->
    history (live ++ [(h, t, n)]) stale k a'
| hist_commit live stale k a os a' :
    history live stale k a -> os_sound os -> Commit os a = Some a' -> history live stale k a'
| hist_decommit live stale k a a' :
    history live stale k a -> Decommit a = Some a' ->
    history [] (map (fun g => fst (fst g)) live ++ stale) (k + 1) a'.

(* a later state of the same allocator *)
Inductive later : alloc -> alloc -> Prop :=
| later_refl a : later a a
| later_reserve a b t n h c : later a b -> modest t n -> Reserve t n b = Some (h, c) -> later a c
| later_commit a b os c : later a b -> os_sound os -> Commit os b = Some c -> later a c
| later_decommit a b c : later a b -> Decommit b = Some c -> later a c.

(* the bytes taken by a list of requests, each rounded up to 64 *)
Definition padded (b : Z) : Z := 64 * ((b + 63) / 64).
Fixpoint room (reqs : list (type_id * Z)) : Z :=
  match reqs with [] => 0 | (t, n) :: rest => padded (n * type_size t) + room rest end.
Definition requests (live : list grant) : list (type_id * Z) := map (fun g => (snd (fst g), snd g)) live.

(* the buffer of n elements of type t at address p *)
Definition in_storage (a : alloc) (p : Z) (t : type_id) (n : Z) : Prop :=
  a_storage a <= p /\ p + n * type_size t <= a_storage a + a_size a.
Definition disjoint (p : Z) (t : type_id) (n : Z) (q : Z) (u : type_id) (m : Z) : Prop :=
  p + n * type_size t <= q \/ q + m * type_size u <= p.

(* addresses of one buffer per granted handle *)
Definition laid_out (a : alloc) (live : list grant) (addr : nat -> Z) : Prop :=
  (forall i h t n, nth_error live i = Some (h, t, n) ->
     GetPointer t h a = Some (addr i) /\ (64 | addr i) /\ in_storage a (addr i) t n) /\
  (forall i j h t n h' t' n', i <> j -> nth_error live i = Some (h, t, n) -> nth_error live j = Some (h', t', n') ->
     disjoint (addr i) t n (addr j) t' n').

(* operation sequences and the usage protocol *)
Inductive op := OReserve (t : type_id) (n : Z) | OCommit | ODecommit.
Definition apply_op (os : Z -> Z) (o : op) (a : alloc) : option alloc :=
  match o with
  | OReserve t n => let* (_, a') := Reserve t n a in Some a'
  | OCommit => Commit os a
  | ODecommit => Decommit a
  end.
Fixpoint apply_ops (os : Z -> Z) (ops : list op) (a : alloc) : option alloc :=
  match ops with [] => Some a | o :: rest => let* a' := apply_op os o a in apply_ops os rest a' end.
Definition modest_op (o : op) : Prop := match o with OReserve t n => modest t n | _ => True end.

(* (Reserve^{0..5} Commit Decommit)* *)
Inductive sessions : list op -> Prop :=
| sess_nil : sessions []
| sess_cons reqs rest :
    (length reqs <= 5)%nat -> sessions rest ->
    sessions (map (fun r => OReserve (fst r) (snd r)) reqs ++ OCommit :: ODecommit :: rest).
