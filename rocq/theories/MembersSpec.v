(* MembersSpec.v -- what altering a tree in place means: C88. *)
From Verif Require Import Py Descriptor.
Local Open Scope list_scope.
Local Open Scope Z_scope.

(** the subtrees of a tree, and what a node is apart from them *)
Inductive child : tree -> nat -> tree -> Prop :=
| child_report id ms k s : nth_error ms k = Some s -> child (TReport id ms) k s
| child_top ms k s : nth_error ms k = Some s -> child (TTop ms) k s
| child_coll kind u ms k s : nth_error ms k = Some s -> child (TColl kind u ms) k s.

Inductive found : tree -> list nat -> tree -> Prop :=
| found_here t : found t [] t
| found_below t k s q x : child t k s -> found s q x -> found t (k :: q) x.

Definition same_head (a b : tree) : Prop :=
  match a, b with
  | TValue v, TValue w => v = w
  | TReport i _, TReport j _ => i = j
  | TTop _, TTop _ => True
  | TColl k u _, TColl l w _ => k = l /\ u = w
  | _, _ => False
  end.

(** n children, numbered from 0 *)
Definition has_children (t : tree) (n : nat) : Prop :=
  match t with
  | TValue _ => False
  | TReport _ ms | TTop ms | TColl _ _ ms => List.length ms = n
  end.

(** Python's index i denotes place k of n *)
Definition denotes (i : Z) (n k : nat) : Prop :=
  (k < n)%nat /\ (i = Z.of_nat k \/ i = Z.of_nat k - Z.of_nat n).

(** t[i][j]... is the node at p *)
Inductive leads : tree -> list Z -> list nat -> tree -> Prop :=
| leads_here t : leads t [] [] t
| leads_below t i is k s p x n :
    has_children t n -> denotes i n k -> child t k s -> leads s is p x -> leads t (i :: is) (k :: p) x.

Definition prefix (q p : list nat) : Prop := exists r, p = q ++ r.

(** t' is t with one member m more, the last one of the node at p *)
Definition grown (p : list nat) (m t t' : tree) : Prop :=
  exists o n, found t p o /\ has_children o n /\
  (exists o', found t' p o' /\ has_children o' (S n)) /\
  (forall q, prefix q p -> exists a b, found t q a /\ found t' q b /\ same_head a b) /\
  (forall q x, ~ prefix q p ->
     (found t' q x <-> found t q x \/ exists r, q = p ++ n :: r /\ found m r x)).

(** Calls that undo each other, and what others leave behind. *)
Inductive undone {A} : list (option A) -> Prop :=
| undone_nil : undone []
| undone_pair m u v : undone u -> undone v -> undone (Some m :: u ++ None :: v).

(** Some m for append(m), None for pop() *)
Inductive leaves {A} : list (option A) -> list A -> Prop :=
| leaves_none u : undone u -> leaves u []
| leaves_some u m w l : undone u -> leaves w l -> leaves (u ++ Some m :: w) (m :: l).

(** k pops reach into what was there before; then l is left behind *)
Inductive history {A} : list (option A) -> nat -> list A -> Prop :=
| history_leaves w l : leaves w l -> history w 0 l
| history_pop u w k l : undone u -> history w k l -> history (u ++ None :: w) (S k) l.

(** TopLevel(...), Report(id, ...), Collection(kind, usage, ...) *)
Inductive container : (list tree -> tree) -> Prop :=
| container_top : container TTop
| container_report id : container (TReport id)
| container_coll kind usage : container (TColl kind usage).
