(** SubsEx: archives for the examples of Subs. *)
From Verif Require Import VolName Base BaseFacts Path Subs SubsSpec SubsFacts.
Definition ascii (t : text) : bytes := map n2b t.
Definition plain (s : string) : node := Node (bstr s) None.
Definition inner : node := Node [] (Some [(str "b.idx", plain "x"); (str "b.sub", plain "")]).
Definition subs : node := Node [] (Some [(str "a.r00", plain ""); (str "a.rar", inner); (str "a.IDX", Node (bstr "id: en" ++ [x0a] ++ bstr "# id: x" ++ [x0a] ++ bstr "id: fr" ++ [x0a]) None)]).
Definition srt : node := Node [] (Some [(str "c.srt", plain "")]).
Definition disk : list (text * node) := [(str "Subs/s.rar", subs); (str "Subs/t.rar", srt); (str "Subs/u.rar", plain "")].
(** two sets in one archive *)
Definition two : node := Node [] (Some [(str "x.rar", srt); (str "x.001", inner)]).
Ltac nodup := repeat (constructor; [cbn; intuition discriminate|]); constructor.
Lemma tidy_plain d : tidy (Node d None).
Proof. constructor. intros items E. discriminate E. Qed.
Ltac tidy := constructor; let items := fresh in let E := fresh in intros items E; inversion E; subst items; clear E; split; [nodup|]; split;
  [let f := fresh "f" in let g := fresh "g" in let F := fresh "F" in let G := fresh "G" in intros f g ? F G _ _; vm_compute in F, G; intuition congruence
  |let n := fresh in let k := fresh in let I := fresh in intros n k I; cbn in I; repeat (destruct I as [I|I]; [inversion I; subst; clear I|]); try contradiction; try apply tidy_plain].
Lemma inner_tidy : tidy inner.
Proof. tidy. Qed.
Lemma srt_tidy : tidy srt.
Proof. tidy. Qed.
Lemma subs_tidy : tidy subs.
Proof. tidy. apply inner_tidy. Qed.
Lemma disk_tidy : forall n k, In (n, k) disk -> tidy k.
Proof. intros n k [E|[E|[E|[]]]]; inversion E; subst; [apply subs_tidy|apply srt_tidy|apply tidy_plain]. Qed.
Lemma disk_names : NoDup (map fst disk).
Proof. cbn. nodup. Qed.
Lemma ascii_some t : t <> [] -> ascii t <> [].
Proof. destruct t; [contradiction|discriminate]. Qed.
Lemma disk_different : different_names (map fst disk).
Proof.
  intros f g s F G A B. apply srr_for_base in A. apply srr_for_base in B. subst s. cbn in F, G.
  destruct F as [<-|[<-|[<-|[]]]], G as [<-|[<-|[<-|[]]]]; try reflexivity; vm_compute in B; discriminate B.
Qed.
Lemma disk_srr : forall fr, In fr (map fst disk) -> exists s, srr_for fr s.
Proof. intros fr [<-|[<-|[<-|[]]]]; apply (srr_for_end [_; _; _; _; _; _]); [reflexivity|cbn; intuition discriminate|reflexivity|cbn; intuition discriminate|reflexivity|cbn; intuition discriminate]. Qed.
