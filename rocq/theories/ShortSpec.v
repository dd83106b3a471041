(* ShortSpec.v -- ways of writing the same descriptor: C90.  From
   doc/descriptor.rst. *)
From Verif Require Import Py Item Descriptor.
Local Open Scope list_scope.
Local Open Scope Z_scope.

(** the same arguments with another alignment *)
Definition aligned_to (n : Z) (a : vargs) : vargs :=
  VArgs (a_way a) (a_usage a) (a_size a) (a_flags a) (a_lmin a) (a_lmax a) (a_pmin a) (a_pmax a) (a_named a)
        (a_unit a) (a_uexp a) (a_desig a) (a_str a) (a_count a) (Some n).

(** the alignment meant: the default is the size, at most 8 *)
Definition alignment_of (a : vargs) (n : Z) : Prop :=
  a_align a = Some n \/ (a_align a = None /\ n = Z.min 8 (a_size a)).

(** constant, without usage, one of it, not aligned *)
Definition constant_args (way : pval) (size : Z) : vargs :=
  VArgs way None size (VInt 3) None None None None None (VInt 0) 0 0 0 1 (Some 0).

(** Lists of members that say the same. *)
Inductive same_members : list tree -> list tree -> Prop :=
(** a TopLevel inside another element is its members *)
| same_top ms : same_members [TTop ms] ms
(** the members of a Report may as well follow it *)
| same_report id ms : same_members [TReport id ms] (TReport id [] :: ms)
(** the alignment of a Value is an Align before it; the flags of an Align do
    not matter *)
| same_align a n f v v0 al : alignment_of a n -> mk_value KValue a = Ok v -> mk_value KValue (aligned_to 0 a) = Ok v0 ->
    mk_align (a_way a) n f = Ok al -> same_members [TValue v] [TValue al; TValue v0]
(** a Padding is a constant Value that is not aligned, or nothing *)
| same_padding w n p v : n <> 0 -> mk_padding w n = Ok p -> mk_value KValue (constant_args w n) = Ok v ->
    same_members [TValue p] [TValue v]
| same_nothing w p : mk_padding w 0 = Ok p -> same_members [TValue p] []
(** an Align to one bit or less is nothing *)
| same_bit w n f al : n <= 1 -> mk_align w n f = Ok al -> same_members [TValue al] []
(** the same inside *)
| same_in_top a b : same_members a b -> same_members [TTop a] [TTop b]
| same_in_report id a b : same_members a b -> same_members [TReport id a] [TReport id b]
| same_in_collection k u a b : same_members a b -> same_members [TColl k u a] [TColl k u b]
| same_app a b c d : same_members a b -> same_members c d -> same_members (a ++ c) (b ++ d)
| same_refl a : same_members a a
| same_sym a b : same_members a b -> same_members b a
| same_trans a b c : same_members a b -> same_members b c -> same_members a c.

(** A place in a tree: what comes before and after, outwards. *)
Inductive around :=
| ARoot
| ATop (o : around) (l r : list tree)
| AReport (o : around) (id : Z) (l r : list tree)
| ACollection (o : around) (kind : pval) (usage : option pval) (l r : list tree).

(** the tree with t at the place *)
Fixpoint put (p : around) (t : tree) : tree :=
  match p with
  | ARoot => t
  | ATop o l r => put o (TTop (l ++ t :: r))
  | AReport o id l r => put o (TReport id (l ++ t :: r))
  | ACollection o k u l r => put o (TColl k u (l ++ t :: r))
  end.
