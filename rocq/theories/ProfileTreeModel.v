(* ProfileTreeModel.v: model of class ProfileTreeView, profiling/profiler.h 157-257.
   A recorded ProfilingStack is the list of its labels[0 .. size-1]; a label is
   the address of a string literal (the code compares addresses, 196), a Z.
   Nodes are values instead of heap objects, weights are size_t.
   Simplification: allocation failure and the text of the lines printed (spaces,
   two decimals) are left out. *)
From Coq Require Import Permutation Sorted.
From Verif Require Import Base.

(* the labels of nodes: one of a stack, "other" and "other (outside of any
   label)" (222-223); the root has a null label (162) *)
Inductive node_label := NullLabel | Label (l : Z) | Other | OtherOutside.
(* 158-168 *)
Inductive tree := Node (label : node_label) (weight : Z) (children : list tree).
Definition t_label (t : tree) : node_label := match t with Node l _ _ => l end.
Definition t_weight (t : tree) : Z := match t with Node _ w _ => w end.
Definition t_children (t : tree) : list tree := match t with Node _ _ ch => ch end.
Definition same_label (n : node_label) (l : Z) : bool := match n with Label k => k =? l | _ => false end.

(* 188-208; [stack] is what is left of the stack from [level] on *)
Fixpoint AddStackToNode (stack : list Z) (node : tree) {struct stack} : tree :=
  match node with
  | Node l w ch =>
    let w' := wrapU 64 (w + 1) in
    match stack with
    | [] => Node l w' ch
    | x :: rest =>
      Node l w' ((fix search (cs : list tree) : list tree :=
        match cs with
        | [] => [AddStackToNode rest (Node (Label x) 0 [])]
        | c :: cs' => if same_label (t_label c) x then AddStackToNode rest c :: cs' else c :: search cs'
        end) ch)
    end
  end.
(* 210-212, 242-244 *)
Definition AddStacks (stacks : list (list Z)) : tree :=
  fold_left (fun t s => AddStackToNode s t) stacks (Node NullLabel 0 []).

(* 214-227 *)
Fixpoint AddOtherChildrenToNode (is_root : bool) (node : tree) : tree :=
  match node with
  | Node l w ch =>
    let ch' := map (AddOtherChildrenToNode false) ch in
    let top_level_children_weight := fold_left (fun a c => wrapU 64 (a + t_weight c)) ch' 0 in
    Node l w (if top_level_children_weight =? 0 then ch'
              else ch' ++ [Node (if is_root then OtherOutside else Other) (wrapU 64 (w - top_level_children_weight)) []])
  end.

(* 231-236: std::sort may return any sorted permutation *)
Definition CompareNodes (n1 n2 : tree) : Prop := t_weight n1 > t_weight n2.   (* 170-172 *)
Definition sorts_to (l l' : list tree) : Prop := Permutation l l' /\ StronglySorted (fun a b => ~ CompareNodes b a) l'.
Inductive SortNode : tree -> tree -> Prop :=
  | SortNode_intro l w ch ch1 ch2 : sorts_to ch ch1 -> Forall2 SortNode ch1 ch2 -> SortNode (Node l w ch) (Node l w ch2).

(* 241-247: a tree the constructor may build *)
Definition ProfileTreeView (stacks : list (list Z)) (t : tree) : Prop :=
  SortNode (AddOtherChildrenToNode true (AddStacks stacks)) t.

(* 176-186: the lines, as (level, weight, label); the percentage is
   100 * weight / weight of the root *)
Fixpoint PrintNode (level : Z) (node : tree) : list (Z * Z * node_label) :=
  match node with
  | Node l w ch =>
    (if level =? 0 then [] else [(level, w, l)]) ++ flat_map (PrintNode (level + 1)) ch
  end.
