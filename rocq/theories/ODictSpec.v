(** ODictSpec: an ordered dictionary is a list of pairs, in the order in which the keys were first set. *)
From Verif Require Import Base ODict.

Section Spec.
Context {K V : Type}.
Variable dec : forall a b : K, {a = b} + {a <> b}.

Definition assoc (l : list (K * V)) (k : K) : option V := option_map snd (find (fun p => if dec (fst p) k then true else false) l).
(** a key that is there keeps its place *)
Definition with_value (l : list (K * V)) (k : K) (v : V) : list (K * V) :=
  match assoc l k with
  | Some _ => map (fun p => if dec (fst p) k then (k, v) else p) l
  | None => l ++ [(k, v)]
  end.
Definition without (l : list (K * V)) (k : K) : list (K * V) := filter (fun p => if dec (fst p) k then false else true) l.
Definition on_list (l : list (K * V)) (c : call K V) : list (K * V) * reply K V :=
  match c with
  | CSet k v => (with_value l k v, RNone)
  | CGet k => (l, match assoc l k with Some v => RValue v | None => RError KeyError end)
  | CDel k => match assoc l k with Some _ => (without l k, RNone) | None => (l, RError KeyError) end
  | CPop k d => match assoc l k, d with Some v, _ => (without l k, RValue v) | None, Some v => (l, RValue v) | None, None => (l, RError KeyError) end
  | CPopItem true => match rev l with (k, v) :: r => (rev r, RPair k v) | [] => (l, RError KeyError) end
  | CPopItem false => match l with (k, v) :: r => (r, RPair k v) | [] => (l, RError KeyError) end
  | CClear => ([], RNone)
  | CSetDefault k v => match assoc l k with Some w => (l, RValue w) | None => (l ++ [(k, v)], RValue v) end
  | CUpdate m => (fold_left (fun l p => with_value l (fst p) (snd p)) m l, RNone)
  | CCopy => (l, RNone)
  | CFromKeys ks v => (fold_left (fun l k => with_value l k v) ks [], RNone)
  | CLen => (l, RLen (lenN l))
  | CKeys => (l, RKeys (map fst l))
  | CReversed => (l, RKeys (rev (map fst l)))
  | CItems => (l, RItems l)
  | CValues => (l, RValues (map snd l))
  end.
Fixpoint on_lists (l : list (K * V)) (cs : list (call K V)) : list (K * V) * list (reply K V) :=
  match cs with
  | [] => (l, [])
  | c :: cs => let r := on_list l c in let q := on_lists (fst r) cs in (fst q, snd r :: snd q)
  end.
End Spec.
(** == is equality *)
Definition decides {A} (eqb : A -> A -> bool) : Prop := forall a b, eqb a b = true <-> a = b.
