(* NumberedProofs.v -- proofs about descriptors whose reports are numbered *)
From Coq Require Import ZArith List Bool Lia ZifyBool ZifyNat String.
From Verif Require Import Py Usage Item Parser Optimizer Descriptor HidSpec Spec StreamSpec OptSpec TreeSpec LayoutSpec ItemFacts ParserFacts StreamProofs StreamTree
  OptFacts PassFacts TreeOpt LayoutProofs IdsSpec IdsProofs NumberedSpec.
Import ListNotations.
Local Open Scope list_scope.
Local Open Scope Z_scope.

Definition marks_all (ms : list tree) : list (option Z) := flat_map marks ms.
Lemma marks_all_eq ms : (fix all ms := match ms with [] => [] | m :: r => marks m ++ all r end) ms = marks_all ms.
Proof. induction ms as [|m ms IH]; [reflexivity|]. cbn [marks_all flat_map]. rewrite IH. reflexivity. Qed.

(** the report of each value, and of what follows *)
Fixpoint heard (r : Z) (l : list (option Z)) : list Z * Z :=
  match l with
  | [] => ([], r)
  | Some id :: l => heard (if id =? 0 then r else id) l
  | None :: l => let (a, r') := heard r l in (r :: a, r')
  end.

Lemma heard_app a b : forall r, heard r (a ++ b) = let (x, r1) := heard r a in let (y, r2) := heard r1 b in (x ++ y, r2).
Proof.
  induction a as [|[id|] a IH]; intros r; cbn [app heard].
  - destruct (heard r b). reflexivity.
  - apply IH.
  - rewrite IH. destruct (heard r a) as [x r1]. destruct (heard r1 b). reflexivity.
Qed.

Definition leaf_ids (ls : list leaf) : list Z := flat_map (fun x => match x with LVal r _ => [r] | _ => [] end) ls.

Lemma leaf_ids_app a b : leaf_ids (a ++ b) = leaf_ids a ++ leaf_ids b.
Proof. apply flat_map_app. Qed.

Lemma threaded_heard t : forall r, heard r (marks t) = (leaf_ids (fst (threaded r t)), snd (threaded r t)).
Proof.
  assert (ALL : forall ms, Forall (fun t => forall r, heard r (marks t) = (leaf_ids (fst (threaded r t)), snd (threaded r t))) ms ->
    forall r, heard r (marks_all ms) = (leaf_ids (fst (threaded_all r ms)), snd (threaded_all r ms))).
  { induction 1 as [|m ms H _ IH]; intros r; [reflexivity|]. cbn [marks_all flat_map threaded_all]. rewrite heard_app, H.
    destruct (threaded r m) as [a r1]. cbn [fst snd]. fold (marks_all ms). rewrite IH. destruct (threaded_all r1 ms) as [b r2]. cbn [fst snd].
    rewrite leaf_ids_app. reflexivity. }
  induction t as [v|id ms IH|ms IH|k u ms IH] using tree_rect2; intros r; cbn [marks]; rewrite ?marks_all_eq.
  - reflexivity.
  - rewrite threaded_report. cbn [heard]. apply ALL. exact IH.
  - rewrite threaded_top. apply ALL. exact IH.
  - rewrite threaded_coll, (ALL ms IH). destruct (threaded_all r ms) as [a r1]. cbn [fst snd].
    change (leaf_ids (LOpen k u :: a ++ [LClose])) with (leaf_ids (a ++ [LClose])). rewrite leaf_ids_app, app_nil_r. reflexivity.
Qed.

Lemma heard_all (P : Z -> Prop) l : (forall id, In (Some id) l -> id <> 0 -> P id) -> forall r, P r -> Forall P (fst (heard r l)).
Proof.
  induction l as [|[id|] l IH]; intros H r R; cbn [heard].
  - constructor.
  - apply IH; [intros x I; apply H; right; exact I|]. destruct (id =? 0) eqn:E; [exact R|]. apply H; [left; reflexivity|lia].
  - specialize (IH (fun x I => H x (or_intror I)) r R). destruct (heard r l). cbn [fst] in *. constructor; assumption.
Qed.

Lemma heard_before (P : Z -> Prop) id rest : id <> 0 -> forall before, (forall z, In (Some z) (map Some before ++ Some id :: rest) -> z <> 0 -> P z) ->
  forall r, Forall P (fst (heard r (map Some before ++ Some id :: rest))).
Proof.
  intros N. induction before as [|x before IH]; intros H r; cbn [map app heard].
  - apply heard_all; [intros z I; apply H; right; exact I|]. replace (id =? 0) with false by lia. apply H; [left; reflexivity|exact N].
  - apply IH. intros z I. apply H. right. exact I.
Qed.

Lemma marks_given t z : In (Some z) (marks t) -> z <> 0 -> In z (given_ids t).
Proof.
  intros I N. revert I.
  assert (ALL : forall ms, Forall (fun t => In (Some z) (marks t) -> In z (given_ids t)) ms -> In (Some z) (marks_all ms) -> In z (given_all ms)).
  { intros ms F I. apply in_flat_map in I. destruct I as [m [I J]]. rewrite Forall_forall in F. apply in_flat_map. exists m. auto. }
  induction t as [v|id ms IH|ms IH|k u ms IH] using tree_rect2; cbn [marks given_ids]; rewrite ?marks_all_eq, ?given_all_eq; intros I.
  - destruct I as [I|[]]. discriminate I.
  - apply in_or_app. destruct I as [I|I]; [left|right; auto]. injection I as ->. replace (z =? 0) with false by lia. left. reflexivity.
  - auto.
  - auto.
Qed.

Lemma given_pos db opt t b : compile db opt t = Ok b -> Forall (fun z => 1 <= z) (given_ids t).
Proof.
  intros C. apply Forall_forall. intros z I. destruct (given_inside t z I) as [N [ms J]]. destruct (Z_lt_dec z 1) as [L|L]; [|lia].
  exfalso. destruct (c28 db opt t) as [e X]; [|congruence]. left. exists z, ms. split; [exact J|lia].
Qed.

(** the fields of a layout are in the reports of its leaves *)
Lemma field_ids_app a b : field_ids (a ++ b) = field_ids a ++ field_ids b.
Proof. apply flat_map_app. Qed.

Lemma gap_ids (P : Z -> Prop) h v p : P h -> Forall P (field_ids (gap_events h v p)).
Proof. intros H. unfold gap_events. destruct (p =? 0); cbn; repeat constructor; assumption. Qed.

Lemma own_ids (P : Z -> Prop) h v : P h -> Forall P (field_ids (own_events h v)).
Proof.
  intros H. unfold own_events. destruct (v_kind v); [|constructor|apply gap_ids; exact H].
  assert (REP : forall e n, Forall P (field_ids [e]) -> Forall P (field_ids (repeat e n))).
  { intros e n F. induction n as [|n IH]; [constructor|]. cbn [repeat]. change (e :: repeat e n) with ([e] ++ repeat e n).
    rewrite field_ids_app. apply Forall_app. auto. }
  assert (MAP : forall d s f a, f_rid a = h -> forall l : list nat, Forall P (field_ids (map (fun k => EvVar a (f k) d s []) l))).
  { intros d s f a A l. induction l as [|k l IH]; [constructor|]. cbn [map field_ids flat_map app]. rewrite A. constructor; [exact H|exact IH]. }
  unfold value_events. destruct (is_constant _); [apply REP; cbn; repeat constructor; exact H|]. cbv zeta.
  assert (FI : forall g : list event, Forall P (field_ids g) -> forall u, Forall P (field_ids (EvColl 2 [u] [] [] [] :: g ++ [EvEnd]))).
  { intros g G u. change (Forall P (field_ids (g ++ [EvEnd]))). rewrite field_ids_app, app_nil_r. exact G. }
  match goal with |- context[if is_variable ?x then ?p else ?q] => assert (G : Forall P (field_ids (if is_variable x then p else q))) end.
  { destruct (is_variable _); [apply MAP; reflexivity|apply REP; cbn; repeat constructor; exact H]. }
  destruct (is_array v); [|exact G]. destruct (usage_list (v_usage v)) as [|u [|? ?]]; auto.
Qed.

Lemma laid_ids (P : Z -> Prop) l : Forall P (leaf_ids l) -> forall l' y, Forall P (field_ids (laid_out y l l')).
Proof.
  induction l as [|[k u| |h v] l IH]; intros F l' y; cbn [laid_out].
  - constructor.
  - destruct u; [|constructor]. destruct l'; [constructor|]. exact (IH F l' y).
  - destruct l'; [constructor|]. exact (IH F l' y).
  - inversion F as [|? ? F1 F2]; subst. destruct l' as [|[k u| |c w] l']; try constructor. cbv zeta. rewrite !field_ids_app. apply Forall_app. split; [apply gap_ids; exact F1|].
    apply Forall_app. split; [apply own_ids; exact F1|]. apply IH. exact F2.
Qed.

Lemma place_ids ev : field_ids ev = flat_map (fun p => match p with PField _ r _ => [r] | _ => [] end) (map place_of ev).
Proof. induction ev as [|[] ev IH]; [reflexivity|..]; cbn [field_ids flat_map map place_of app]; fold (field_ids ev); rewrite IH; reflexivity. Qed.

Lemma read_ids db opt t b m ev : well_formed t -> (opt = true -> closed_tree t) -> compile db opt t = Ok b -> host_reads m b ev ->
  field_ids ev = field_ids (tree_layout t).
Proof.
  intros WF CL C R. destruct opt.
  - destruct (c76_places db t b m ev WF (CL eq_refl) C R) as [E _]. rewrite !place_ids, E. reflexivity.
  - apply (c76 db t b WF C) in R. rewrite R. reflexivity.
Qed.

Lemma c98 db opt t b m ev : well_formed t -> (opt = true -> closed_tree t) -> compile db opt t = Ok b -> host_reads m b ev ->
  starts_numbered t -> Forall (fun r => 1 <= r) (field_ids ev).
Proof.
  intros WF CL C R [before [id [rest [E N]]]]. rewrite (read_ids _ _ _ _ _ _ WF CL C R). unfold tree_layout. apply laid_ids.
  pose proof (threaded_heard t 0) as H. pose proof (f_equal fst H) as H1. cbn [fst] in H1. rewrite <- H1, E. apply heard_before; [exact N|].
  intros z I NZ. pose proof (given_pos _ _ _ _ C) as G. rewrite Forall_forall in G. apply G. apply marks_given; [rewrite E; exact I|exact NZ].
Qed.

Lemma c98_never db opt t b m ev : well_formed t -> (opt = true -> closed_tree t) -> compile db opt t = Ok b -> host_reads m b ev ->
  never_numbered t -> Forall (fun r => r = 0) (field_ids ev).
Proof.
  intros WF CL C R NN. rewrite (read_ids _ _ _ _ _ _ WF CL C R). unfold tree_layout. apply laid_ids.
  pose proof (f_equal fst (threaded_heard t 0)) as H1. cbn [fst] in H1. rewrite <- H1. apply heard_all; [|reflexivity].
  intros z I N. elim N. apply NN. exact I.
Qed.
