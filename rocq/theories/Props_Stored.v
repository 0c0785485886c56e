(** C73 and C74: the order of the files in an .srr file, and the files that are left out. *)
From Coq Require Import Permutation Sorted.
From Verif Require Import Base BaseFacts Path DirsSpec SelectEx Stored StoredSpec StoredFacts.

(** The SFV files follow the other files: first those that are not of main archives, then those that are, each once and in order. *)
Theorem C73_sfvs : forall copy copied sfvs main, NoDup main ->
  exists last rest, parted (fun s => In s main) sfvs last rest /\ add_sfvs copy copied sfvs main = Ok (copied ++ map copy rest ++ map copy last).
Proof. exact add_ok. Qed.
Print Assumptions C73_sfvs.
Example C73_sfvs_ex : NoDup (map str ["b.sfv"; "a.sfv"]%string) /\
  add_sfvs (app (str "/w/")) [str "/w/a.nfo"] (map str ["a.sfv"; "S/s.sfv"; "b.sfv"]%string) (map str ["b.sfv"; "a.sfv"]%string) = Ok (map str ["/w/a.nfo"; "/w/S/s.sfv"; "/w/a.sfv"; "/w/b.sfv"]%string).
Proof. split; [apply distinct_ok|]; vm_compute; reflexivity. Qed.

(** The files of music: NFO files first, in order, then the others by name. *)
Theorem C73_music : forall l, (forall x, In x l -> absolute x) ->
  exists first rest sorted, parted nfo l first rest /\ sort_music l = first ++ sorted /\ Permutation rest sorted /\ StronglySorted not_after sorted.
Proof. exact sort_ok. Qed.
Print Assumptions C73_music.
Example C73_music_ex : (forall x, In x (map str ["/w/b.m3u"; "/w/z.nfo"; "/w/b.SFV"; "/w/a.NFO"]%string) -> absolute x) /\
  sort_music (map str ["/w/b.m3u"; "/w/z.nfo"; "/w/b.SFV"; "/w/a.NFO"]%string) = map str ["/w/z.nfo"; "/w/a.NFO"; "/w/b.SFV"; "/w/b.m3u"]%string.
Proof. split; [|vm_compute; reflexivity]. intros x I. cbn [map In] in I. destruct I as [<-|[<-|[<-|[<-|[]]]]]; eexists; reflexivity. Qed.

(** Other releases: archives and .srr files stand directly above their SFV file, and the order is that of before otherwise. *)
Theorem C73_above : forall l, NoDup l -> (forall m x y, In m l -> In x l -> In y l -> belongs m x -> belongs m y -> x = y) ->
  exists ms rest l', parted (fun m => exists x, In x l /\ belongs m x) l ms rest /\ move l = Ok l' /\ stacked ms rest l'.
Proof. exact move_ok. Qed.
Print Assumptions C73_above.
Theorem C73_all : forall l l', move l = Ok l' -> Permutation l l'.
Proof. exact move_perm. Qed.
Print Assumptions C73_all.
Example C73_above_ex : let l := map str ["/w/a.nfo"; "/w/P/p.RAR"; "/w/S/s.srr"; "/w/x.rar"; "/w/P/P.sfv"; "/w/p.sfv"; "/w/S/s.SFV"; "/w/S/s.rar"]%string in
  (NoDup l /\ forall m x y, In m l -> In x l -> In y l -> belongs m x -> belongs m y -> x = y) /\
  move l = Ok (map str ["/w/a.nfo"; "/w/x.rar"; "/w/P/p.RAR"; "/w/P/P.sfv"; "/w/p.sfv"; "/w/S/s.srr"; "/w/S/s.rar"; "/w/S/s.SFV"]%string).
Proof.
  cbn zeta. split; [|vm_compute; reflexivity]. split; [apply distinct_ok; vm_compute; reflexivity|]. intros m x y _ I J Bx By. apply belongs_spec in Bx as [_ Bx]. apply belongs_spec in By as [_ By]. rewrite Bx in By. clear Bx m.
  cbn [map In] in I, J. destruct I as [<-|[<-|[<-|[<-|[<-|[<-|[<-|[<-|[]]]]]]]]]; destruct J as [<-|[<-|[<-|[<-|[<-|[<-|[<-|[<-|[]]]]]]]]]; first [reflexivity|vm_compute in By; discriminate By].
Qed.

(** If entries of SFV files with one name have one CRC, then of the .srs files those are stored that can be read and have the CRC of their track in the SFV files, or a track that is not there. *)
Theorem C74_check_partial : forall load es l, (forall n c m d, In (n, c) es -> In (m, d) es -> lower n = lower m -> c = d) ->
  exists l' dropped, check_music load es l = Ok l' /\
    parted (fun f => named ".srs" f -> exists n c, load f = Some (n, c) /\ forall m d, In (m, d) es -> lower m = lower n -> d = c) l l' dropped.
Proof. exact check_ok. Qed.
Print Assumptions C74_check_partial.
Example C74_check_partial_ex : let es := [(str "01.mp3", 7); (str "02.mp3", 8)] in (forall n c m d, In (n, c) es -> In (m, d) es -> lower n = lower m -> c = d) /\
  check_music (fun f => if teqb f (str "/w/1.srs") then Some (str "01.MP3", 7) else if teqb f (str "/w/2.srs") then Some (str "02.mp3", 9) else if teqb f (str "/w/3.srs") then Some (str "03.mp3", 9) else None) es
    (map str ["/w/a.nfo"; "/w/1.srs"; "/w/2.srs"; "/w/3.srs"; "/w/4.SRS"; "/w/a.m3u"]%string) = Ok (map str ["/w/a.nfo"; "/w/1.srs"; "/w/3.srs"; "/w/a.m3u"]%string).
Proof.
  cbn zeta. split; [|vm_compute; reflexivity]. intros n c m d [I|[I|[]]] [J|[J|[]]] E; injection I as <- <-; injection J as <- <-; first [reflexivity|vm_compute in E; discriminate E].
Qed.

(** Otherwise the .srs file of a track with the CRC of its SFV file is dropped: the SFV file of another disk has a track of that name. *)
Theorem C74_check_refuted : exists load sfv1 sfv2 l f n c, named ".srs" f /\ In f l /\ load f = Some (n, c) /\ NoDup (map fst sfv1) /\ NoDup (map fst sfv2) /\ In (n, c) sfv1 /\
  exists l', check_music load (sfv1 ++ sfv2) l = Ok l' /\ ~ In f l'.
Proof.
  exists (fun f => Some (str "01.mp3", if teqb f (str "/w/CD1/01.srs") then 1 else 2)), [(str "01.mp3", 1)], [(str "01.mp3", 2)], (map str ["/w/CD1/01.srs"; "/w/CD2/01.srs"]%string), (str "/w/CD1/01.srs"), (str "01.mp3"), 1.
  split; [exists (str "/w/cd1/01"); reflexivity|]. split; [now left|]. split; [vm_compute; reflexivity|]. split; [apply distinct_ok; reflexivity|]. split; [apply distinct_ok; reflexivity|]. split; [now left|].
  exists [str "/w/CD2/01.srs"]. split; [vm_compute; reflexivity|]. intros [H|[]]. vm_compute in H. discriminate H.
Qed.
Print Assumptions C74_check_refuted.

(** If no file is named by both options, exactly the files that are named by one are left out. *)
Theorem C74_exclude_partial : forall skip_list skipre l, (forall f, In f l -> In (basename f) skip_list -> skipre f = true -> False) ->
  exists l' skipped, exclude skip_list skipre l = Ok l' /\ parted (fun f => ~ In (basename f) skip_list /\ skipre f = false) l l' skipped.
Proof. exact exclude_ok. Qed.
Print Assumptions C74_exclude_partial.
Example C74_exclude_partial_ex : let sr f := teqb f (str "/w/S/b.nfo") in (forall f, In f (map str ["/w/a.nfo"; "/w/S/b.nfo"; "/w/S/c.nfo"; "/w/S/a.nfo"]%string) -> In (basename f) [str "a.nfo"] -> sr f = true -> False) /\
  exclude [str "a.nfo"] sr (map str ["/w/a.nfo"; "/w/S/b.nfo"; "/w/S/c.nfo"; "/w/S/a.nfo"]%string) = Ok [str "/w/S/c.nfo"].
Proof. cbn zeta. split; [|vm_compute; reflexivity]. intros f _ H E. apply teqb_eq in E. subst f. destruct H as [H|[]]. vm_compute in H. discriminate H. Qed.

(** A file that both options name is removed twice, which raises ValueError. *)
Theorem C74_both : forall skip_list skipre l f, NoDup l -> In f l -> In (basename f) skip_list -> skipre f = true -> exclude skip_list skipre l = Err ValueError.
Proof. exact exclude_error. Qed.
Print Assumptions C74_both.
Theorem C74_exclude_refuted : exists skip_list skipre l, NoDup l /\ exclude skip_list skipre l = Err ValueError.
Proof. exists [str "a.nfo"], (fun _ => true), [str "/w/a.nfo"]. split; [apply distinct_ok|]; vm_compute; reflexivity. Qed.
Print Assumptions C74_exclude_refuted.
