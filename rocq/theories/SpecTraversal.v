(** SpecTraversal.v -- what "document order" and "enclosing section" mean,
    independently of the code under study. *)
From Verif Require Import Base Py Models.

(** A position in a forest: the index of a tree, then of a child, and so on. *)
Definition path := list nat.
Fixpoint node_at (forest : list hier) (p : path) : option hier :=
  match p with
  | [] => None
  | i :: p' =>
      match nth_error forest i with
      | None => None
      | Some h => match p' with [] => Some h | _ => node_at (h_kids h) p' end
      end
  end.
(** [p] comes before [q] in document order: [p] is an ancestor of [q], or the
    two part ways and [p] takes the earlier child. *)
Fixpoint before (p q : path) : Prop :=
  match p, q with
  | [], [] => False
  | [], _ :: _ => True
  | _ :: _, [] => False
  | i :: p', j :: q' => i < j \/ (i = j /\ before p' q')
  end.
Fixpoint sorted (l : list path) : Prop :=
  match l with
  | [] => True
  | p :: l' => (forall q, In q l' -> before p q) /\ sorted l'
  end.
(** [nodes] is the list of all nodes of [forest], each position exactly once, in
    document order. *)
Definition document_order (forest : list hier) (nodes : list hier) : Prop :=
  exists ps : list path,
    sorted ps
    /\ (forall p, In p ps <-> node_at forest p <> None)
    /\ map Some nodes = map (node_at forest) ps.

(** Number of nodes. *)
Fixpoint size (h : hier) : nat :=
  match h with
  | Hier _ _ _ (Some l) _ _ _ _ _ _ _ => S (list_sum (map size l))
  | Hier _ _ _ None _ _ _ _ _ _ _ => 1
  end.
Definition fsize (l : list hier) : nat := list_sum (map size l).

(** Every node's level is its depth, the given nodes being at depth [n]. *)
Fixpoint leveled (n : nat) (h : hier) : Prop :=
  match h with
  | Hier _ _ lvl cs _ _ _ _ _ _ _ =>
      lvl = n /\
      match cs with
      | Some l => (fix all (l : list hier) : Prop :=
                     match l with [] => True | k :: l' => leveled (S n) k /\ all l' end) l
      | None => True
      end
  end.

(** [d] occurs in the tree [h] (including [h] itself). *)
Inductive within : hier -> hier -> Prop :=
| within_self h : within h h
| within_kid h k d : In k (h_kids h) -> within d k -> within d h.

(** The conversion one expects, by recursion over the tree: every node is handed
    the section it is nested in, where a node's children are nested in the
    node's own section if it made one and in the node's enclosing section
    otherwise.  Result: final callback state, the calls made, and how it ended. *)
Section Convert.
Context {Sec St : Type}.
Variable node_lambda : St -> hier -> Sec -> St * result (Sec * bool).
Fixpoint convert (h : hier) (sec : Sec) (st : St) {struct h}
  : (St * list (hier * Sec)) * result unit :=
  match node_lambda st h sec with
  | (st', Raise e) => ((st', [(h, sec)]), Raise e)
  | (st', Ok (s, made)) =>
      let inner := if made then s else sec in
      let '((st2, calls), r) :=
        match h with
        | Hier _ _ _ (Some l) _ _ _ _ _ _ _ =>
            (fix all (l : list hier) (st : St) :=
               match l with
               | [] => ((st, []), Ok tt)
               | k :: l' =>
                   match convert k inner st with
                   | ((st1, c1), Raise e) => ((st1, c1), Raise e)
                   | ((st1, c1), Ok _) =>
                       let '((st2, c2), r) := all l' st1 in ((st2, c1 ++ c2), r)
                   end
               end) l st'
        | _ => ((st', []), Ok tt)
        end in
      ((st2, (h, sec) :: calls), r)
  end.
Fixpoint convert_forest (l : list hier) (sec : Sec) (st : St)
  : (St * list (hier * Sec)) * result unit :=
  match l with
  | [] => ((st, []), Ok tt)
  | k :: l' =>
      match convert k sec st with
      | ((st1, c1), Raise e) => ((st1, c1), Raise e)
      | ((st1, c1), Ok _) =>
          let '((st2, c2), r) := convert_forest l' sec st1 in ((st2, c1 ++ c2), r)
      end
  end.
End Convert.

(** ** "the last entry with key [k]", for maps built from lists *)
Definition is_last_with {A K} (key : A -> K) (l : list A) (k : K) (a : A) : Prop :=
  exists l1 l2, l = l1 ++ a :: l2 /\ key a = k /\ (forall x, In x l2 -> key x <> k).
Definition is_first_with {A K} (key : A -> K) (l : list A) (k : K) (a : A) : Prop :=
  exists l1 l2, l = l1 ++ a :: l2 /\ key a = k /\ (forall x, In x l1 -> key x <> k).

(** ** add_child programs: a call fits if the child's level is the parent's
    level plus one *)
From Verif Require Import BundleModel.
Definition fits (s : heap) (op : nat * nat) : bool :=
  match nth_error s (fst op), nth_error s (snd op) with
  | Some p, Some c => Nat.eqb (o_level c) (S (o_level p))
  | _, _ => false
  end.
(** the children handed to node [p], in call order, by the fitting calls *)
Definition given (s : heap) (p : nat) (ops : list (nat * nat)) : list nat :=
  map snd (filter (fun op => Nat.eqb (fst op) p && fits s op) ops).
Definition called (p : nat) (ops : list (nat * nat)) : bool :=
  existsb (fun op => Nat.eqb (fst op) p) ops.
