(* Props_Allocator.v: C14 and C15, the block allocator of internal/allocator.h. *)
From Verif Require Import Base CommonModel AllocatorModel AllocatorSpec AllocatorProofs.

(* C14: in every reachable committed state, the live handles resolve to
   64-byte aligned addresses, inside the storage, with room for the elements
   asked for, and the buffers do not overlap. *)
Theorem C14_disjoint_aligned live stale k a :
  history live stale k a -> a_committed a = true -> exists addr, laid_out a live addr.
Proof. exact (blocks_laid_out live stale k a). Qed.
Print Assumptions C14_disjoint_aligned.

(* Any five requests can be served by an allocator at rest, whatever its past. *)
Theorem C14_session reqs live0 stale k a os :
  history live0 stale k a -> live0 = [] -> a_committed a = false -> (length reqs <= 5)%nat ->
  (forall t n, In (t, n) reqs -> modest t n) -> os_sound os -> os_never_fails os (2 ^ 63) ->
  exists hs a1 a2 addr, reserve_all reqs a = Some (hs, a1) /\ Commit os a1 = Some a2 /\
    length hs = length reqs /\ laid_out a2 (map (fun x => (fst x, fst (snd x), snd (snd x))) (combine hs reqs)) addr.
Proof. exact (request_session reqs live0 stale k a os). Qed.
Print Assumptions C14_session.

(* In particular the packed blocks and the packed result of a GEMM, in the
   single-threaded driver, the multi-threaded caller and each task, lie in
   separate buffers, when the products of block sizes fit in an int. *)
Theorem C14_gemm_buffers bp reqs stale k a os :
  fits_int bp -> In reqs [single_thread_requests bp; master_requests bp; task_requests bp] ->
  history [] stale k a -> a_committed a = false -> os_sound os -> os_never_fails os (2 ^ 63) ->
  exists hs a1 a2 addr, reserve_all reqs a = Some (hs, a1) /\ Commit os a1 = Some a2 /\
    length hs = length reqs /\ laid_out a2 (map (fun x => (fst x, fst (snd x), snd (snd x))) (combine hs reqs)) addr.
Proof. exact (gemm_buffers bp reqs stale k a os). Qed.
Print Assumptions C14_gemm_buffers.

(* Without the size bound the claim is false: n * sizeof(T) wraps around. *)
Theorem C14_size_wrap_refuted : exists t n u m h1 h2 a1 a2 a3 p q,
  Reserve t n new_alloc = Some (h1, a1) /\ Reserve u m a1 = Some (h2, a2) /\ Commit os64 a2 = Some a3 /\
  GetPointer t h1 a3 = Some p /\ GetPointer u h2 a3 = Some q /\ 0 < m /\ 0 < n /\ p = q.
Proof. exact size_wrap_overlap_refuted. Qed.
Print Assumptions C14_size_wrap_refuted.

(* 100 bytes then 3 ints, served from a 192-byte reservation in 256 bytes at 4096 *)
Example C14_example : exists h1 h2 a1 a2 a3,
  Reserve TUint8 100 new_alloc = Some (h1, a1) /\ Reserve TInt32 3 a1 = Some (h2, a2) /\
  Commit (fun size => if size =? 256 then 4096 else 0) a2 = Some a3 /\ a_size a3 = 256 /\
  GetPointer TUint8 h1 a3 = Some 4096 /\ GetPointer TInt32 h2 a3 = Some 4224.
Proof. do 5 eexists. repeat split; vm_compute; reflexivity. Qed.

(* the hypotheses of C14_session hold for a used allocator and a working system *)
Example C14_hypotheses : history [] [first_handle 0] 1 (idle 1) /\ a_committed (idle 1) = false /\
  os_sound (fun size => if size <=? 2 ^ 63 then 4096 else 0) /\
  os_never_fails (fun size => if size <=? 2 ^ 63 then 4096 else 0) (2 ^ 63) /\
  fits_int (Build_block_params 16 16 64 384 256 64).
Proof.
  split; [exact first_round|]. split; [reflexivity|]. split; [|split].
  - intros size Hs. destruct (size <=? 2 ^ 63) eqn:E; [right|left; reflexivity].
    split; [lia|]. split; [exists 64; reflexivity|lia].
  - intros size Hs. replace (size <=? 2 ^ 63) with true by lia. lia.
  - unfold fits_int. cbn. lia.
Qed.

(* C15: a handle from before a Decommit is refused (for fewer than 2^64
   Decommits), a handle is refused at another type, and what does resolve is a
   live handle in a committed allocator. *)
Theorem C15_stale_rejected live stale k a h t : history live stale k a -> k < 2 ^ 64 -> In h stale ->
  GetPointer t h a = None.
Proof. exact (stale_rejected live stale k a h t). Qed.
Print Assumptions C15_stale_rejected.

Theorem C15_wrong_type_rejected live stale k a h t u n : history live stale k a ->
  In (h, t, n) live -> u <> t -> GetPointer u h a = None.
Proof. exact (wrong_type_rejected live stale k a h t u n). Qed.
Print Assumptions C15_wrong_type_rejected.

Theorem C15_only_live_resolve live stale k a t h p : history live stale k a ->
  In h stale \/ In h (map (fun g => fst (fst g)) live) -> k < 2 ^ 64 -> GetPointer t h a = Some p ->
  a_committed a = true /\ exists n, In (h, t, n) live.
Proof. exact (only_live_resolve live stale k a t h p). Qed.
Print Assumptions C15_only_live_resolve.

(* The lifetimes of an allocator in which no assertion fails are exactly the
   sequences of sessions: up to five Reserves, Commit, Decommit. *)
Theorem C15_lifetimes os ops : os_sound os -> os_never_fails os (2 ^ 63) -> Forall modest_op ops ->
  ((exists a, apply_ops os ops new_alloc = Some a /\ Destroy a = Some tt) <-> sessions ops).
Proof. exact (lifetimes os ops). Qed.
Print Assumptions C15_lifetimes.

Theorem C15_six_blocks_refused reqs a : a_offsets a = [] -> (5 < length reqs)%nat -> reserve_all reqs a = None.
Proof. exact (six_blocks_refused reqs a). Qed.
Print Assumptions C15_six_blocks_refused.

Theorem C15_storage_never_shrinks live stale k a b :
  history live stale k a -> later a b -> a_size a <= a_size b.
Proof. exact (storage_never_shrinks live stale k a b). Qed.
Print Assumptions C15_storage_never_shrinks.

(* After a commit, any later commit of no more bytes takes no new memory: it
   succeeds for every os, even one that always fails, and moves nothing. *)
Theorem C15_repeated_pattern live stale k a b live' stale' k' os :
  history live stale k a -> a_committed a = true -> later a b -> history live' stale' k' b ->
  a_committed b = false -> room (requests live') <= room (requests live) ->
  exists c, Commit os b = Some c /\ a_storage c = a_storage b /\ a_size c = a_size b.
Proof. exact (repeated_pattern_allocates_nothing live stale k a b live' stale' k' os). Qed.
Print Assumptions C15_repeated_pattern.

(* After exactly 2^64 Decommits a stale handle resolves again. *)
Theorem C15_generation_wrap_refuted : exists live stale k a h t p,
  history live stale k a /\ k = 2 ^ 64 /\ In h stale /\ GetPointer t h a = Some p.
Proof. exact generation_wrap_refuted. Qed.
Print Assumptions C15_generation_wrap_refuted.

Example C15_example : exists h a1 a2 a3 a4 h' a5 a6,
  Reserve TInt32 7 new_alloc = Some (h, a1) /\ Commit os64 a1 = Some a2 /\
  Reserve TInt32 7 a2 = None /\ Decommit a2 = Some a3 /\ GetPointer TInt32 h a3 = None /\
  Reserve TInt32 9 a3 = Some (h', a4) /\ Commit (fun _ => 0) a4 = Some a5 /\ GetPointer TInt32 h a5 = None /\
  GetPointer TInt32 h' a5 = Some 64 /\ GetPointer TUint8 h' a5 = None /\ Decommit a5 = Some a6 /\
  sessions [OReserve TInt32 7; OCommit; ODecommit; OReserve TInt32 9; OCommit; ODecommit].
Proof.
  do 8 eexists. repeat split; try (vm_compute; reflexivity).
  apply (sess_cons [(TInt32, 7)]); [cbn; lia|]. apply (sess_cons [(TInt32, 9)] []); [cbn; lia|]. constructor.
Qed.
