(* Base.v: machine integers, option monad, counted loops, memories and finite
   sums used by every model file.  Nothing here models a particular function
   of the repository, except where a comment says so. *)
From Coq Require Export ZArith List Bool Lia.
From Coq Require Export ZifyBool.
Export ListNotations.
Global Open Scope Z_scope.

(* ------------------------------------------------------------------ *)
(* Option monad: [None] is undefined behaviour, a failed assert, an    *)
(* abort or an out-of-bounds access.                                   *)

Definition bind {A B} (x : option A) (f : A -> option B) : option B :=
  match x with Some a => f a | None => None end.
Notation "'let*' x := e 'in' k" := (bind e (fun x => k))
  (at level 200, x pattern, e at level 100, k at level 200, right associativity).
Definition guard (b : bool) : option unit := if b then Some tt else None.
Notation "'check' b ; k" := (bind (guard b) (fun _ => k))
  (at level 200, b at level 100, k at level 200, right associativity).

(* ------------------------------------------------------------------ *)
(* Two's complement machine integers of w bits                          *)

Definition int_min (w : Z) : Z := - 2 ^ (w - 1).
Definition int_max (w : Z) : Z := 2 ^ (w - 1) - 1.
Definition in_int (w z : Z) : bool := (int_min w <=? z) && (z <=? int_max w).
(* conversion to a w-bit signed type (implementation-defined in C++ before
   C++20, two's complement truncation on every supported compiler) *)
Definition wrapS (w z : Z) : Z := (z + 2 ^ (w - 1)) mod 2 ^ w - 2 ^ (w - 1).
(* conversion to a w-bit unsigned type *)
Definition wrapU (w z : Z) : Z := z mod 2 ^ w.

(* What signed overflow does.  [Trap]: C++ rule, overflow is undefined
   behaviour, the run has no result.  [Wrap]: two's complement wrap-around. *)
Inductive ovf := Wrap | Trap.
Definition norm (m : ovf) (w z : Z) : option Z :=
  match m with
  | Wrap => Some (wrapS w z)
  | Trap => if in_int w z then Some z else None
  end.

(* ------------------------------------------------------------------ *)
(* for (i = start; i < stop; i += step) body                            *)

Fixpoint for_loop {S} (fuel : nat) (i stop step : Z)
         (body : Z -> S -> option S) (s : S) : option S :=
  if i <? stop then
    match fuel with
    | O => None
    | Datatypes.S n =>
        let* s' := body i s in for_loop n (i + step) stop step body s'
    end
  else Some s.
(* The fuel bounds the number of iterations from above (step >= 1). *)
Definition for_step {S} (start stop step : Z)
           (body : Z -> S -> option S) (s : S) : option S :=
  for_loop (Z.to_nat (stop - start)) start stop step body s.

(* ------------------------------------------------------------------ *)
(* Memories                                                            *)

(* Some v: allocated cell with contents v; None: not part of the object. *)
Definition mem := Z -> option Z.
Definition rd (m : mem) (a : Z) : option Z := m a.
Definition upd (m : mem) (a v : Z) : mem :=
  fun x => if x =? a then Some v else m x.
Definition wr (m : mem) (a v : Z) : option mem :=
  match m a with Some _ => Some (upd m a v) | None => None end.

(* sum_{lo <= i < lo+n} f i *)
Fixpoint sum_n (f : Z -> Z) (lo : Z) (n : nat) : Z :=
  match n with O => 0 | S k => sum_n f lo k + f (lo + Z.of_nat k) end.
Definition sumZ (f : Z -> Z) (lo hi : Z) : Z := sum_n f lo (Z.to_nat (hi - lo)).
