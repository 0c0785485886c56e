(** Props_ODict: the theorems of C63, on the ordered dictionary of rescene/ordereddict.py. *)
From Verif Require Import Base BaseFacts ODict ODictSpec ODictFacts.

(** every program gets the replies that a list of pairs would give *)
Theorem C63_replies : forall (K V : Type) (keqb : K -> K -> bool) (dec : forall a b : K, {a = b} + {a <> b}) (cs : list (call K V)), decides keqb ->
  snd (o_calls keqb o_new cs) = snd (on_lists dec [] cs).
Proof. intros K V keqb dec cs H. exact (replies_agree keqb H dec cs). Qed.
Print Assumptions C63_replies.
(** two of them are equal when they hold the same pairs in the same order *)
Theorem C63_equal : forall (K V : Type) (keqb : K -> K -> bool) (veqb : V -> V -> bool) (dec : forall a b : K, {a = b} + {a <> b}) (cs ds : list (call K V)), decides keqb -> decides veqb ->
  exists b, o_eq keqb veqb (fst (o_calls keqb o_new cs)) (fst (o_calls keqb o_new ds)) = Ok b /\ (b = true <-> fst (on_lists dec [] cs) = fst (on_lists dec [] ds)).
Proof. intros K V keqb veqb dec cs ds Hk Hv. exact (equal_agree keqb Hk dec veqb Hv cs ds). Qed.
Print Assumptions C63_equal.
(** a key that is set again keeps its place; one that is deleted first goes to the end *)
Example C63_replies_example : decides N.eqb /\
  snd (o_calls N.eqb o_new [CSet 1 10; CSet 2 20; CSet 3 30; CSet 1 11; CItems; CDel 2; CSet 2 21; CKeys; CReversed; CPopItem false; CGet 1; CDel 7; CCopy; CSetDefault 5 50; CPop 3 None; CValues; CLen]) =
  [RNone; RNone; RNone; RNone; RItems [(1, 11); (2, 20); (3, 30)]; RNone; RNone; RKeys [1; 3; 2]; RKeys [2; 3; 1]; RPair 1 11; RError KeyError; RError KeyError; RNone; RValue 50; RValue 30; RValues [21; 50]; RLen 2].
Proof. split; [exact N.eqb_eq|reflexivity]. Qed.
Example C63_equal_example : decides N.eqb /\
  o_eq N.eqb N.eqb (fst (o_calls N.eqb o_new [CSet 1 10; CSet 2 20])) (fst (o_calls N.eqb o_new [CSet 2 20; CSet 1 10])) = Ok false /\
  o_eq N.eqb N.eqb (fst (o_calls N.eqb o_new [CSet 1 10; CSet 2 20])) (fst (o_calls N.eqb o_new [CSet 2 20; CSet 1 9; CPopItem false; CUpdate [(2, 20); (1, 10)]])) = Ok true.
Proof. split; [exact N.eqb_eq|split; reflexivity]. Qed.
