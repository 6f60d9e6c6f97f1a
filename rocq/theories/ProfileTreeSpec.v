(* ProfileTreeSpec.v: what a profile should show, from the samples alone. *)
From Coq Require Import Permutation.
From Verif Require Import Base ProfileTreeModel.

(* [p] begins [s] *)
Fixpoint begins (p s : list Z) : bool :=
  match p, s with
  | [], _ => true
  | x :: p', y :: s' => (x =? y) && begins p' s'
  | _, [] => false
  end.
Definition equal (p s : list Z) : bool := begins p s && begins s p.
(* samples passing through p, samples ending in p *)
Definition through (p : list Z) (stacks : list (list Z)) : Z := Z.of_nat (length (filter (begins p) stacks)).
Definition ending (p : list Z) (stacks : list (list Z)) : Z := Z.of_nat (length (filter (equal p) stacks)).

(* the lines of the profile *)
Inductive line_of (stacks : list (list Z)) : list node_label -> Z -> Prop :=
  | line_label p : p <> [] -> through p stacks > 0 -> line_of stacks (map Label p) (through p stacks)
  | line_other p : p <> [] -> through p stacks > ending p stacks -> line_of stacks (map Label p ++ [Other]) (ending p stacks)
  | line_outside : through [] stacks > ending [] stacks -> line_of stacks [OtherOutside] (ending [] stacks).
(* the line printed for a node, from its path and weight *)
Definition print_line (pw : list node_label * Z) : Z * Z * node_label :=
  (Z.of_nat (length (fst pw)), snd pw, last (fst pw) NullLabel).

(* all subtrees, the tree itself included *)
Inductive subtree : tree -> tree -> Prop :=
  | subtree_self t : subtree t t
  | subtree_child t l w ch c : In c ch -> subtree t c -> subtree t (Node l w ch).
