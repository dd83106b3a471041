(* Members.v -- the list methods of Hierarchical, with which scripts build and
   alter trees: descriptor.py:11-34.

   Simplified: a tree has no sharing, so an object that is a member of two
   collections is two trees here, and only one of them changes. *)
From Verif Require Import Py Descriptor.
Local Open Scope list_scope.
Local Open Scope Z_scope.

(** self.members; a Value has none *)
Definition members_of (t : tree) : list tree :=
  match t with TValue _ => [] | TReport _ ms => ms | TTop ms => ms | TColl _ _ ms => ms end.

Definition with_members (t : tree) (ms : list tree) : tree :=
  match t with
  | TValue v => TValue v
  | TReport id _ => TReport id ms
  | TTop _ => TTop ms
  | TColl k u _ => TColl k u ms
  end.

(** t[i] -- descriptor.py:21-22; a Value is not subscriptable *)
Definition t_getitem (t : tree) (i : Z) : result tree :=
  match t with TValue _ => Err TypeError | _ => py_index (members_of t) i end.

(** len(t) -- descriptor.py:33-34 *)
Definition t_len (t : tree) : result Z :=
  match t with TValue _ => Err TypeError | _ => Ok (Z.of_nat (List.length (members_of t))) end.

Inductive call_on := Append (m : tree) | Pop.

(** t.append(m), t.pop() -- descriptor.py:27-31. [pop] has no return, so that
    the member is gone. *)
Definition t_call (c : call_on) (t : tree) : result tree :=
  match t with
  | TValue _ => Err AttributeError
  | _ => match c with
         | Append m => Ok (with_members t (members_of t ++ [m]))
         | Pop => match members_of t with
                  | [] => Err IndexError
                  | ms => Ok (with_members t (removelast ms))
                  end
         end
  end.

(** a list whose k-th element has become x *)
Fixpoint become {A} (l : list A) (k : nat) (x : A) : list A :=
  match l, k with
  | [], _ => []
  | _ :: r, O => x :: r
  | y :: r, S k => y :: become r k x
  end.

(** t[i][j]...append(m): the members on the way are altered in place *)
Fixpoint edit (c : call_on) (path : list Z) (t : tree) : result tree :=
  match path with
  | [] => t_call c t
  | i :: p =>
      let* s := t_getitem t i in
      let* s' := edit c p s in
      let ms := members_of t in
      let k := Z.to_nat (if i <? 0 then i + Z.of_nat (List.length ms) else i) in
      Ok (with_members t (become ms k s'))
  end.

(** one call after the other *)
Fixpoint calls (cs : list call_on) (t : tree) : result tree :=
  match cs with
  | [] => Ok t
  | c :: r => let* t' := t_call c t in calls r t'
  end.
