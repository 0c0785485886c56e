(** Props_UsePrep: the files of an NZB file that an SRR file is made of (C81). *)
From Coq Require Import Permutation Sorted.
From Verif Require Import VolSpec.
From Verif Require Import Base SrrSpec InfoSpec UsePrep UsePrepSpec UsePrepFacts UsePrepEx.

(** No number of a segment is twice in the files that are made of the entries of an NZB file. *)
Theorem C81_one_each : forall subject segments, one_each (make_post subject segments).
Proof. exact made_one_each. Qed.
Print Assumptions C81_one_each.
Example C81_one_each_example : p_segs (make_post (str "a") [mkSeg 1 5 (str "x"); mkSeg 2 5 (str "y"); mkSeg 1 6 (str "z")]) = [(1, mkSeg 1 6 (str "z")); (2, mkSeg 2 5 (str "y"))].
Proof. reflexivity. Qed.
(** Of the files with one name the first of the biggest is used, and there is one file for each name. *)
Theorem C81_best : forall known counts png l d st sf, Forall one_each l -> prepare known counts png l = inr (d, st, sf) ->
  forall n p, (In (n, p) d <-> get_post n d = Some p) /\ (get_post n d = Some p <-> first_best bigger (named n l) p).
Proof. intros known counts png l d st sf O H n p. exact (conj (prepare_dict known counts png l d st sf n p O H) (prepare_best known counts png l d st sf n p O H)). Qed.
Print Assumptions C81_best.
Example C81_best_example : input_ok xcounts xl /\ match prepare xnone xcounts xpng xl with
  | inr (d, st, sf) => map fst d = [str "a.rar"; str "proof.sfv"; str "x.sfv"; str "d.jpg"; str "c.JPG"; str "x.nfo"; str "x.subs.sfv"; str "e.png"] /\
      get_post (str "a.rar") d = Some (xp "a.rar" 1 20 "2") /\
      names st = [(str "x.nfo", 3); (str "c.JPG", 99); (str "x.subs.sfv", 4); (str "e.png", 4)] /\ names sf = [(str "x.sfv", 6); (str "proof.sfv", 9)]
  | inl _ => False end.
Proof. exact (conj xl_ok ex_prepare). Qed.
(** No SRR file is made just when the version that is used of some file is a RAR file without its first segment or the
    file is a repack. *)
Theorem C81_refused : forall known counts png l, Forall one_each l ->
  ((exists r, prepare known counts png l = inl r) <-> exists n p, first_best bigger (named n l) p /\ (without_first p \/ repacked known (p_name p))) /\
  (forall n, prepare known counts png l = inl (IncompleteNzb n) -> rar_ending n /\ exists p, first_best bigger (named n l) p /\ ~ In 1 (map fst (p_segs p))) /\
  (forall n, prepare known counts png l = inl (Repack n) -> repacked known n /\ exists p, In p l /\ p_name p = n).
Proof. exact prepare_refuses. Qed.
Print Assumptions C81_refused.
Example C81_refused_example : prepare xnone xcounts xpng [xp "a.nfo" 1 5 "1"; xp "a.r00" 2 5 "2"] = inl (IncompleteNzb (str "a.r00")) /\
  prepare xnone xcounts xpng [xp "0123456789aBcDeFgHiJ.RAR" 1 5 "1"] = inl (Repack (str "0123456789aBcDeFgHiJ.RAR")).
Proof. split; vm_compute; reflexivity. Qed.
(** A RAR file that was posted in two parts is refused though its first segment is there. *)
Theorem C81_first_refuted : exists l n p, input_ok xcounts l /\ prepare xnone xcounts xpng l = inl (IncompleteNzb n) /\ In p l /\ p_name p = n /\ In 1 (map fst (p_segs p)).
Proof. exact first_refuted. Qed.
Print Assumptions C81_first_refuted.
(** Of the SFV files with one name the first of those with most entries is used, then with most comments. *)
Theorem C81_sfvs : forall known counts png l d st sf, input_ok counts l -> prepare known counts png l = inr (d, st, sf) ->
  NoDup (map p_name sf) /\ forall p, In p sf <-> main_sfv p /\ first_best (more_entries counts) (named (p_name p) l) p.
Proof. exact sfvs_final. Qed.
Print Assumptions C81_sfvs.
Example C81_sfvs_example : input_ok xcounts xl /\ match prepare xnone xcounts xpng xl with inr (_, _, sf) => names sf = [(str "x.sfv", 6); (str "proof.sfv", 9)] | inl _ => False end.
Proof. split; [exact xl_ok|vm_compute; reflexivity]. Qed.
(** If no two SFV files for extras, proofs, samples or subpacks are neighbours in the sorted list, all of these come
    after all others, and the others are sorted. *)
Theorem C81_end_partial : forall known counts png l d st sf s, input_ok counts l -> prepare known counts png l = inr (d, st, sf) -> StronglySorted by_name s ->
  (forall p, In p s <-> main_sfv p /\ first_best (more_entries counts) (named (p_name p) l) p) -> spaced s ->
  exists a e, sf = a ++ e /\ Permutation sf s /\ StronglySorted by_name a /\ Forall (fun p => ~ extra (p_name p)) a /\ Forall (fun p => extra (p_name p)) e.
Proof. exact ended. Qed.
Print Assumptions C81_end_partial.
Example C81_end_example : input_ok xcounts sp_l /\ StronglySorted by_name sp_s /\ (forall p, In p sp_s <-> main_sfv p /\ first_best (more_entries xcounts) (named (p_name p) sp_l) p) /\ spaced sp_s /\
  exists d st, prepare xnone xcounts xpng sp_l = inr (d, st, [xp "b.sfv" 1 5 "4"; xp "y.sfv" 1 5 "1"; xp "c-sample.sfv" 1 5 "2"; xp "a-proof.sfv" 1 5 "3"]).
Proof. exact ex_end. Qed.
(** Two neighbours: the second stays in front of a main SFV file, for the list is changed while it is gone through. *)
Theorem C81_end_refuted : exists l d st sf p q a b c, input_ok xcounts l /\ prepare xnone xcounts xpng l = inr (d, st, sf) /\
  sf = a ++ p :: b ++ q :: c /\ extra (p_name p) /\ ~ extra (p_name q).
Proof. exact end_refuted. Qed.
Print Assumptions C81_end_refuted.
(** Stored are the NFO files, images, .srs files and SFV files of subtitles that are wanted, those that end with .nfo first
    and otherwise in the order of the NZB file. *)
Theorem C81_store : forall known counts png l d st sf, prepare known counts png l = inr (d, st, sf) -> exists a b, st = a ++ b /\
  picked (fun p => to_be_stored p /\ ~ unwanted png p /\ ending ".nfo" (p_name p)) l a /\ picked (fun p => to_be_stored p /\ ~ unwanted png p /\ ~ ending ".nfo" (p_name p)) l b.
Proof. exact stored. Qed.
Print Assumptions C81_store.
Example C81_store_example : match prepare xnone xcounts xpng xl with
  inr (_, st, _) => names st = [(str "x.nfo", 3); (str "c.JPG", 99); (str "x.subs.sfv", 4); (str "e.png", 4)] | inl _ => False end.
Proof. vm_compute. reflexivity. Qed.
(** A file that was posted twice is stored twice, with the smaller version. *)
Theorem C81_twice_refuted : exists l d st sf p q, input_ok xcounts l /\ prepare xnone xcounts xpng l = inr (d, st, sf) /\ st = [p; q] /\ p_name p = p_name q /\ size p < size q.
Proof. exact twice_refuted. Qed.
Print Assumptions C81_twice_refuted.
(** A file X.NFO is not stored first. *)
Theorem C81_nfo_refuted : exists l d st sf p q, input_ok xcounts l /\ prepare xnone xcounts xpng l = inr (d, st, sf) /\ st = [p; q] /\
  ~ with_ext ".nfo" (p_name p) /\ with_ext ".nfo" (p_name q).
Proof. exact nfo_refuted. Qed.
Print Assumptions C81_nfo_refuted.
(** The name of a file is what is quoted in the subject. *)
Theorem C81_name : forall a n b, ~ In QUOTE a -> ~ In QUOTE n -> ~ In QUOTE b -> parse_name (a ++ QUOTE :: n ++ QUOTE :: b) = n.
Proof. exact name_quoted. Qed.
Print Assumptions C81_name.
Example C81_name_example : parse_name (str "[1/2] - " ++ QUOTE :: str "a b.r00" ++ QUOTE :: str " yEnc (1/5)") = str "a b.r00" /\
  parse_name (str "[1/2]-a.r00 (1/5)") = str "a.r00" /\ parse_name (str "a.r00") = str "a.r00".
Proof. split; [|split]; vm_compute; reflexivity. Qed.
(** Without quotes different files can get one name, so that one of them is lost. *)
Theorem C81_name_refuted : exists s t g h n, inside (str "one.rar") s /\ inside (str "two.rar") t /\ g <> h /\
  map p_name [make_post s g; make_post t h] = [n; n] /\
  match prepare xnone xcounts xpng [make_post s g; make_post t h] with inr (d, _, _) => length d = 1%nat | inl _ => False end.
Proof. exact name_refuted. Qed.
Print Assumptions C81_name_refuted.
