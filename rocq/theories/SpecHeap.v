(** * SpecHeap: object graphs, reachability, and what code that holds some
    references can do to a heap *)
From Verif Require Import PyBase Heap.

(** No dangling reference *)
Definition in_heap (h : heap) (r : ref) : Prop := forall n, r = Lc n -> n < length h.
Definition heap_ok (h : heap) : Prop := forall n o r, nth_error h n = Some o -> In r (refs o) -> in_heap h r.

(** Object [n] can be reached from the references [roots]. *)
Inductive reach (h : heap) (roots : list ref) : nat -> Prop :=
| reach_root n : In (Lc n) roots -> reach h roots n
| reach_step n o m : reach h roots n -> nth_error h n = Some o -> In (Lc m) (refs o) -> reach h roots m.

(** Code that holds [roots] can create objects and overwrite any object it can
    reach, putting into them scalars and references to what it can reach:
    this covers item assignment, deletion, append, update, and so on. *)
Definition holds (h : heap) (roots : list ref) (o : obj) : Prop :=
  forall m, In (Lc m) (refs o) -> reach h roots m.
Inductive acts : list ref * heap -> list ref * heap -> Prop :=
| acts_none s : acts s s
| acts_new roots h o s : holds h roots o -> acts (Lc (length h) :: roots, h ++ [o]) s -> acts (roots, h) s
| acts_put roots h n o s : reach h roots n -> holds h roots o -> acts (roots, put n o h) s -> acts (roots, h) s.

(** Object [n] is the same in both heaps. *)
Definition untouched (h h' : heap) (n : nat) : Prop := nth_error h' n = nth_error h n.
