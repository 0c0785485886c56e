(** ODict: the ordered dictionary of rescene/ordereddict.py, which is used where Python has none.
    The lists [key, prev, next] are nodes in a heap; names of addresses are numbers.  Hashing is not modelled: a plain
    dictionary is a list of pairs of which only the first with a key counts.  Changes during iteration, __reduce__ and
    __repr__ are not modelled. *)
From Verif Require Import Base.

Section Dict.
Context {K V : Type}.
(** == on keys and on values *)
Variables (keqb : K -> K -> bool) (veqb : V -> V -> bool).

(** ** dict of Python *)
Fixpoint d_get {W} (d : list (K * W)) (k : K) : option W :=
  match d with [] => None | (k', w) :: d => if keqb k' k then Some w else d_get d k end.
Fixpoint d_del {W} (d : list (K * W)) (k : K) : list (K * W) :=
  match d with [] => [] | (k', w) :: d => if keqb k' k then d_del d k else (k', w) :: d_del d k end.
Definition d_set {W} (d : list (K * W)) (k : K) (w : W) : list (K * W) := (k, w) :: d_del d k.

(** ** The heap *)
Record node := mkNode { n_key : option K; n_prev : N; n_next : N }.
Definition heap := N -> node.
Definition put (h : heap) (a : N) (n : node) : heap := fun b => if b =? a then n else h b.
Definition set_next (h : heap) (a x : N) : heap := put h a (mkNode (n_key (h a)) (n_prev (h a)) x).
Definition set_prev (h : heap) (a x : N) : heap := put h a (mkNode (n_key (h a)) x (n_next (h a))).
(** [o_free]: the next new address *)
Record odict := mkO { o_heap : heap; o_free : N; o_end : N; o_map : list (K * N); o_dict : list (K * V) }.

(** ordereddict.py:36-40 clear *)
Definition o_clear (s : odict) : odict :=
  let e := o_free s in mkO (put (o_heap s) e (mkNode None e e)) (e + 1) e [] [].
(** ordereddict.py:27-34 __init__ without arguments *)
Definition o_new : odict := o_clear (mkO (fun _ => mkNode None 0 0) 0 0 [] []).
(** ordereddict.py:42-47 __setitem__ *)
Definition o_set (s : odict) (k : K) (v : V) : odict :=
  let s' := match d_get (o_dict s) k with
            | Some _ => s
            | None =>
              let e := o_end s in
              let curr := n_prev (o_heap s e) in
              let n := o_free s in
              let h := put (o_heap s) n (mkNode (Some k) curr e) in
              mkO (set_prev (set_next h curr n) e n) (n + 1) e (d_set (o_map s) k n) (o_dict s)
            end in
  mkO (o_heap s') (o_free s') (o_end s') (o_map s') (d_set (o_dict s') k v).
(** dict.__getitem__ *)
Definition o_get (s : odict) (k : K) : result V := match d_get (o_dict s) k with Some v => Ok v | None => Err KeyError end.
(** ordereddict.py:49-53 __delitem__ *)
Definition o_del (s : odict) (k : K) : result odict :=
  match d_get (o_dict s) k with
  | None => Err KeyError
  | Some _ =>
    match d_get (o_map s) k with
    | None => Err KeyError
    | Some a =>
      let n := o_heap s a in
      let h := set_next (o_heap s) (n_prev n) (n_next n) in
      Ok (mkO (set_prev h (n_next n) (n_prev n)) (o_free s) (o_end s) (d_del (o_map s) k) (d_del (o_dict s) k))
    end
  end.
(** ordereddict.py:55-67 __iter__ and __reversed__; [step] follows the links.  The node at the end has the key None. *)
Fixpoint o_walk (fuel : nat) (step : node -> N) (h : heap) (e cur : N) : result (list K) :=
  match fuel with
  | O => Err OutOfFuel
  | S fuel =>
    if cur =? e then Ok []
    else
      do r <- o_walk fuel step h e (step (h cur));
      match n_key (h cur) with Some k => Ok (k :: r) | None => Err TypeError end
  end.
Definition o_iter (s : odict) : result (list K) :=
  o_walk (S (length (o_dict s))) n_next (o_heap s) (o_end s) (n_next (o_heap s (o_end s))).
Definition o_reversed (s : odict) : result (list K) :=
  o_walk (S (length (o_dict s))) n_prev (o_heap s) (o_end s) (n_prev (o_heap s (o_end s))).
(** DictMixin.pop; [d]: the default, if one is given *)
Definition o_pop (s : odict) (k : K) (d : option V) : result (odict * V) :=
  match o_get s k with
  | Err _ => match d with Some v => Ok (s, v) | None => Err KeyError end
  | Ok v => do s <- o_del s k; Ok (s, v)
  end.
(** ordereddict.py:69-77 popitem: next() of the iterator is its first key *)
Definition o_popitem (s : odict) (last : bool) : result (odict * (K * V)) :=
  match o_dict s with
  | [] => Err KeyError
  | _ =>
    do l <- (if last then o_reversed s else o_iter s);
    match l with
    | [] => Err ValueError                      (* StopIteration *)
    | k :: _ => do r <- o_pop s k None; Ok (fst r, (k, snd r))
    end
  end.
(** DictMixin.items and values, with iteritems *)
Definition o_items (s : odict) : result (list (K * V)) :=
  do ks <- o_iter s; mapR (fun k => do v <- o_get s k; Ok (k, v)) ks.
Definition o_values (s : odict) : result (list V) := do l <- o_items s; Ok (map snd l).
(** DictMixin.setdefault *)
Definition o_setdefault (s : odict) (k : K) (v : V) : odict * V :=
  match o_get s k with Ok w => (s, w) | Err _ => (o_set s k v, v) end.
(** DictMixin.update with the items of another one *)
Definition o_update (s : odict) (l : list (K * V)) : odict := fold_left (fun s p => o_set s (fst p) (snd p)) l s.
(** ordereddict.py:106-107 copy *)
Definition o_copy (s : odict) : result odict := do l <- o_items s; Ok (o_update o_new l).
(** ordereddict.py:109-114 fromkeys *)
Definition o_fromkeys (l : list K) (v : V) : odict := fold_left (fun s k => o_set s k v) l o_new.
(** ordereddict.py:116-124 __eq__ with another one *)
Definition o_eq (s t : odict) : result bool :=
  if lenN (o_dict s) =? lenN (o_dict t) then
    do a <- o_items s; do b <- o_items t;
    Ok (forallb (fun p => keqb (fst (fst p)) (fst (snd p)) && veqb (snd (fst p)) (snd (snd p))) (combine a b))
  else Ok false.

(** ** A program that uses one *)
Inductive call :=
| CSet (k : K) (v : V) | CGet (k : K) | CDel (k : K) | CPop (k : K) (d : option V) | CPopItem (last : bool) | CClear | CSetDefault (k : K) (v : V)
| CUpdate (l : list (K * V)) | CCopy | CFromKeys (l : list K) (v : V) | CLen | CKeys | CReversed | CItems | CValues.
Inductive reply := RNone | RValue (v : V) | RPair (k : K) (v : V) | RLen (n : N) | RKeys (l : list K) | RItems (l : list (K * V)) | RValues (l : list V) | RError (e : exn).
(** after an error the dictionary is as it was before *)
Definition or_error {A} (s : odict) (r : result A) (f : A -> odict * reply) : odict * reply :=
  match r with Ok a => f a | Err e => (s, RError e) end.
Definition o_call (s : odict) (c : call) : odict * reply :=
  match c with
  | CSet k v => (o_set s k v, RNone)
  | CGet k => or_error s (o_get s k) (fun v => (s, RValue v))
  | CDel k => or_error s (o_del s k) (fun s => (s, RNone))
  | CPop k d => or_error s (o_pop s k d) (fun r => (fst r, RValue (snd r)))
  | CPopItem last => or_error s (o_popitem s last) (fun r => (fst r, RPair (fst (snd r)) (snd (snd r))))
  | CClear => (o_clear s, RNone)
  | CSetDefault k v => let r := o_setdefault s k v in (fst r, RValue (snd r))
  | CUpdate l => (o_update s l, RNone)
  | CCopy => or_error s (o_copy s) (fun s => (s, RNone))
  | CFromKeys l v => (o_fromkeys l v, RNone)
  | CLen => (s, RLen (lenN (o_dict s)))
  | CKeys => or_error s (o_iter s) (fun l => (s, RKeys l))
  | CReversed => or_error s (o_reversed s) (fun l => (s, RKeys l))
  | CItems => or_error s (o_items s) (fun l => (s, RItems l))
  | CValues => or_error s (o_values s) (fun l => (s, RValues l))
  end.
Fixpoint o_calls (s : odict) (cs : list call) : odict * list reply :=
  match cs with
  | [] => (s, [])
  | c :: cs => let r := o_call s c in let q := o_calls (fst r) cs in (fst q, snd r :: snd q)
  end.
End Dict.
Arguments node : clear implicits.
Arguments odict : clear implicits.
Arguments call : clear implicits.
Arguments reply : clear implicits.
