(** C76: comparing SFV files. *)
From Coq Require Import Permutation.
From Verif Require Import Base BaseFacts VolSpec Sfv SfvSpec SfvFacts SfvSortFacts SameSfv SameSfvSpec SameSfvFacts.

(** Every file has entries, exactly one list of them; what same_sfv calls the same has the same entries, and files
    with the same entries are called the same, if their names are in the same case and are no .rar files or those of one set. *)
Theorem C76_entries : forall data, exists es, entries data es /\ forall es', entries data es' -> es' = es.
Proof. intros data. destruct (has_entries data) as [es E]. exists es. split; [exact E|]. intros es' E'. exact (entries_fun data es' es E' E). Qed.
Print Assumptions C76_entries.
Theorem C76_same_partial : forall a b es es', entries a es -> entries b es' -> exists r, same_sfv a b = Ok r /\
  (r = true -> same_entries es es') /\ (tame es -> exact_entries es es' -> r = true).
Proof. exact same_ok. Qed.
Print Assumptions C76_same_partial.
Example C76_same_partial_ex :
  let a := bstr "; by x" ++ [x0a] ++ bstr "b.mp3 0000000a" ++ [x0a] ++ bstr "a.mp3 1" in
  let b := bstr "a.mp3" ++ [x09] ++ bstr "00000001" ++ [x0d; x0a] ++ bstr "b.mp3 A" in
  let es := [mkSfv (str "b.mp3") (str "0000000a"); mkSfv (str "a.mp3") (str "00000001")] in
  let es' := [mkSfv (str "a.mp3") (str "00000001"); mkSfv (str "b.mp3") (str "0000000A")] in
  entries a es /\ entries b es' /\ tame es /\ exact_entries es es' /\ same_sfv a b = Ok true /\ same_sfv a (bstr "a.mp3 1") = Ok false.
Proof.
  cbv zeta. split; [eapply read_entries; vm_compute; reflexivity|]. split; [eapply read_entries; vm_compute; reflexivity|].
  split; [|split; [|split; vm_compute; reflexivity]].
  - split; [repeat (constructor; [cbn; intuition discriminate|]); constructor|]. left. apply no_rar_test. vm_compute. reflexivity.
  - exists [mkSfv (str "b.mp3") (str "0000000A"); mkSfv (str "a.mp3") (str "00000001")]. split; [apply perm_swap|].
    constructor; [|constructor; [|constructor]]; cbn [e_name e_crc]; (split; [reflexivity|]); [|apply same_refl].
    apply (low_same _ (str "0000000A")). vm_compute. reflexivity.
Qed.

(** Case is ignored when two entries are compared, but not when they are sorted. *)
Theorem C76_case_refuted : exists a b es es', entries a es /\ entries b es' /\ same_entries es es' /\ no_rar es /\ same_sfv a b = Ok false.
Proof. exists case_a, case_b, case_es, case_es'. exact case_ok. Qed.
Print Assumptions C76_case_refuted.
(** The comparison of names is not transitive, so that the same entries in another order can be different. *)
Theorem C76_order_refuted : exists a b es es', entries a es /\ entries b es' /\ Permutation es es' /\ NoDup (map e_name es) /\ same_sfv a b = Ok false.
Proof. exists order_a, order_b, order_es, order_es'. exact order_ok. Qed.
Print Assumptions C76_order_refuted.
