(** UsenetSrrFacts: lemmas for UsenetSrr. *)
From Coq Require Import Permutation.
From Verif Require Import VolName VolSpec VolFacts.
From Verif Require Import Base BaseFacts Path Rar Srr SrrSpec SrrFacts Sfv SfvSpec SfvFacts SfvSortFacts CreateFacts WriteFacts ProgFacts PathFacts Stream Collect CollectSpec CollectFacts UsenetSrr UsenetSrrSpec.

(** ** The dict *)
Lemma uget_in k d u : uget k d = Some u -> In (k, u) d.
Proof. induction d as [|[n v] d IH]; cbn [uget]; [discriminate|]. destruct (teqb n k) eqn:E; [|intros H; right; now apply IH]. apply teqb_eq in E as ->. intros H. injection H as ->. now left. Qed.
Lemma uget_none k d : uget k d = None <-> ~ In k (map fst d).
Proof.
  induction d as [|[n v] d IH]; cbn [uget map fst In]; [tauto|]. destruct (teqb n k) eqn:E.
  - apply teqb_eq in E. split; [discriminate|]. intros H. exfalso. auto.
  - rewrite IH. split; [intros H [->|I]; [rewrite teqb_refl in E; discriminate|now apply H]|intros H I; apply H; now right].
Qed.
Lemma uget_nodup k d u : NoDup (map fst d) -> In (k, u) d -> uget k d = Some u.
Proof.
  induction d as [|[n v] d IH]; cbn [uget map fst]; intros N I; [destruct I|]. inversion N as [|x l X Y]; subst. destruct I as [I|I].
  - injection I as -> ->. now rewrite teqb_refl.
  - destruct (teqb n k) eqn:E; [|now apply IH]. apply teqb_eq in E as ->. exfalso. apply X. apply in_map_iff. now exists (k, u).
Qed.
Lemma uget_app k d e : uget k (d ++ e) = match uget k d with Some u => Some u | None => uget k e end.
Proof. induction d as [|[n v] d IH]; cbn [uget app]; [reflexivity|]. destruct (teqb n k); [reflexivity|exact IH]. Qed.
Lemma lower_idem t : lower (lower t) = lower t.
Proof. unfold lower. rewrite map_map. apply map_ext. intros c. unfold lower1. destruct ((65 <=? c) && (c <=? 90)) eqn:E; [|now rewrite E]. replace ((65 <=? c + 32) && (c + 32 <=? 90)) with false; [reflexivity|]. symmetry. apply andb_false_iff. right. apply andb_true_iff in E as [E _]. apply N.leb_le in E. apply N.leb_gt. lia. Qed.
Lemma fits_lower r k : fits r k -> lower k = lower r.
Proof. intros [-> | [-> | <-]]; [reflexivity|apply lower_idem|now rewrite lower_idem]. Qed.
Lemma any_spec r d : ~ In r (map fst d) -> match any_case r d with
  | Some u => exists a k b, d = a ++ (k, u) :: b /\ fits r k /\ forall k', In k' (map fst a) -> ~ fits r k'
  | None => forall k, In k (map fst d) -> ~ fits r k end.
Proof.
  induction d as [|[k v] d IH]; cbn [any_case map fst In]; [tauto|]. intros N. destruct (teqb k (lower r) || teqb (lower k) r) eqn:E.
  - exists [], k, d. split; [reflexivity|]. split; [|intros ? []]. apply orb_true_iff in E as [E|E]; apply teqb_eq in E; [right; now left|right; now right].
  - apply orb_false_iff in E as [E1 E2]. assert (F : ~ fits r k). { intros [-> | [-> |X]]; [apply N; now left|now rewrite teqb_refl in E1|rewrite X, teqb_refl in E2; discriminate]. }
    specialize (IH ltac:(tauto)). destruct (any_case r d) as [u|].
    + destruct IH as (a & k1 & b & -> & X & Y). exists ((k, v) :: a), k1, b. split; [reflexivity|]. split; [exact X|]. cbn [map fst In]. intros k' [<-|I]; [exact F|now apply Y].
    + intros k' [<-|I]; [exact F|now apply IH].
Qed.
(** all files of the dict afterwards are files of the dict before, with the name but for capitals *)
Lemma resolve_called rs : forall d0 d, (forall k u, In (k, u) d -> called d0 k u) -> forall d', fst (resolve rs d) = d' -> (forall k u, In (k, u) d' -> called d0 k u).
Proof.
  induction rs as [|r rs IH]; intros d0 d C d'; cbn [resolve fst]; [intros <-; exact C|]. destruct (uget r d) eqn:U; [now apply IH|]. apply uget_none in U. pose proof (any_spec r d U) as A. destruct (any_case r d) as [u|]; cbn [fst]; [|intros <-; exact C].
  apply IH. intros k v I. apply in_app_iff in I as [I|[I|[]]]; [now apply C|]. injection I as <- <-. destruct A as (a & k & b & -> & F & _). destruct (C k u) as (k0 & I & E); [apply in_app_iff; right; now left|]. exists k0. split; [exact I|]. rewrite E. now apply fits_lower.
Qed.
Lemma called_refl d k u : In (k, u) d -> called d k u.
Proof. intros I. now exists k. Qed.
Lemma uget_keep rs : forall d k u, uget k d = Some u -> uget k (fst (resolve rs d)) = Some u.
Proof.
  induction rs as [|r rs IH]; intros d k u U; cbn [resolve fst]; [exact U|]. destruct (uget r d); [now apply IH|]. destruct (any_case r d); [|exact U]. apply IH. now rewrite uget_app, U.
Qed.
Lemma first_fit r : forall (a a' : udict) k k' u u' b b', a ++ (k, u) :: b = a' ++ (k', u') :: b' -> fits r k -> fits r k' ->
  (forall x, In x (map fst a) -> ~ fits r x) -> (forall x, In x (map fst a') -> ~ fits r x) -> u = u'.
Proof.
  induction a as [|p a IH]; intros [|p' a'] k k' u u' b b' E F F' A A'; cbn [app] in E.
  - now injection E.
  - injection E as <- E. exfalso. apply (A' k); [now left|exact F].
  - injection E as -> E. exfalso. apply (A k'); [now left|exact F'].
  - injection E as <- E. apply (IH a' k k' u u' b b' E F F'); intros x I; [apply A|apply A']; now right.
Qed.
Lemma picks_fun d r u u' : NoDup (map fst d) -> picks d r u -> picks d r u' -> u = u'.
Proof.
  intros ND [P|[P (a & k & b & -> & F & A)]] [Q|[Q (a' & k' & b' & E & F' & A')]].
  - apply (uget_nodup _ _ _ ND) in P, Q. congruence.
  - exfalso. apply Q. apply in_map_iff. now exists (r, u).
  - exfalso. apply P. apply in_map_iff. now exists (r, u').
  - exact (first_fit r _ _ _ _ _ _ _ _ E F F' A A').
Qed.
Lemma picks_fits d r u : picks d r u -> exists k, In k (map fst d) /\ fits r k.
Proof.
  intros [P|[_ (a & k & b & -> & F & _)]]; [exists r; split; [apply in_map_iff; now exists (r, u)|now left]|]. exists k. split; [|exact F]. rewrite map_app. apply in_app_iff. right. now left.
Qed.
Lemma resolve_spec rs : forall d x, NoDup (map fst d) -> (forall q v, In (q, v) x -> picks d q v) -> (forall q r, In q (map fst x) -> In r rs -> lower q = lower r -> q = r) -> apart rs ->
  (snd (resolve rs (d ++ x)) = true <-> forall r, In r rs -> exists k, In k (map fst d) /\ fits r k) /\
  (snd (resolve rs (d ++ x)) = true -> forall r u, In r rs -> picks d r u -> uget r (fst (resolve rs (d ++ x))) = Some u).
Proof.
  induction rs as [|r rs IH]; intros d x ND X1 X2 A; cbn [resolve snd fst]; [split; [split; [intros _ ? []|reflexivity]|intros _ ? ? []]|].
  assert (A' : apart rs) by (intros a b Ha Hb; apply A; now right).
  assert (Step : forall w y, (forall q v, In (q, v) y -> picks d q v) -> (forall q r0, In q (map fst y) -> In r0 rs -> lower q = lower r0 -> q = r0) -> uget r (d ++ y) = Some w -> picks d r w ->
    (snd (resolve rs (d ++ y)) = true <-> forall r0, In r0 (r :: rs) -> exists k, In k (map fst d) /\ fits r0 k) /\
    (snd (resolve rs (d ++ y)) = true -> forall r0 u, In r0 (r :: rs) -> picks d r0 u -> uget r0 (fst (resolve rs (d ++ y))) = Some u)).
  { intros w y Y1 Y2 U P. destruct (IH d y ND Y1 Y2 A') as [I1 I2]. split.
    - rewrite I1. split; [|intros H q I; apply H; now right]. intros H q [<-|I]; [|now apply H]. exact (picks_fits _ _ _ P).
    - intros T q u [<-|I] Q; [|now apply I2]. apply uget_keep. rewrite U. f_equal. exact (picks_fun _ _ _ _ ND P Q). }
  assert (X2' : forall q r0, In q (map fst x) -> In r0 rs -> lower q = lower r0 -> q = r0) by (intros q r0 I J; apply X2; [exact I|now right]).
  destruct (uget r (d ++ x)) as [v|] eqn:U.
  - apply (Step v x X1 X2' U). rewrite uget_app in U. destruct (uget r d) as [w|] eqn:V; [injection U as ->; left; now apply uget_in|]. apply X1. now apply uget_in.
  - pose proof (proj1 (uget_none _ _) U) as Ux. rewrite uget_app in U. destruct (uget r d) eqn:V; [discriminate|]. apply uget_none in V, U.
    assert (XF : forall k, In k (map fst x) -> ~ fits r k). { intros k I F. apply fits_lower in F. apply U. rewrite <- (X2 k r I (or_introl eq_refl) F). exact I. }
    pose proof (any_spec r _ Ux) as S. destruct (any_case r (d ++ x)) as [v|] eqn:C.
    + destruct S as (a & k & b & E & F & Fa).
      assert (SP : exists b', d = a ++ (k, v) :: b').
      { clear - E F XF. revert d E. induction a as [|p a IHa]; intros [|q d] E; cbn [app] in E.
        - exfalso. apply (XF k); [rewrite E; now left|exact F].
        - injection E as -> E. exists d. reflexivity.
        - exfalso. apply (XF k); [|exact F]. rewrite E. cbn [map In]. right. rewrite map_app. apply in_app_iff. right. now left.
        - injection E as -> E. destruct (IHa d E) as (b' & ->). now exists b'. }
      destruct SP as (b' & Ed). assert (P : picks d r v) by (right; split; [exact V|]; exists a, k, b'; auto). rewrite <- app_assoc. apply (Step v); [| | |exact P].
      * intros q w I. apply in_app_iff in I as [I|[I|[]]]; [now apply X1|]. injection I as <- <-. exact P.
      * intros q r0 I J L. rewrite map_app in I. apply in_app_iff in I as [I|[<-|[]]]; [now apply X2'|]. apply A; [now left|now right|exact L].
      * rewrite app_assoc, uget_app. replace (uget r (d ++ x)) with (@None ufile) by (symmetry; now apply uget_none). cbn [uget]. now rewrite teqb_refl.
    + cbn [snd fst]. split; [|discriminate]. split; [discriminate|]. intros H. exfalso. destruct (H r (or_introl eq_refl)) as (k & I & F). apply (S k); [|exact F]. rewrite map_app. apply in_app_iff. now left.
Qed.
Lemma resolve_all rs d d' : resolve rs d = (d', true) -> forall r, In r rs -> exists u, uget r d' = Some u.
Proof.
  revert d. induction rs as [|q rs IH]; intros d H r I; [destruct I|]. cbn [resolve] in H. destruct (uget q d) as [u|] eqn:U.
  - destruct I as [<-|I]; [|now apply (IH d)]. exists u. replace d' with (fst (resolve rs d)) by now rewrite H. now apply uget_keep.
  - destruct (any_case q d) as [v|]; [|discriminate]. destruct I as [<-|I]; [|now apply (IH _ H)]. exists v. replace d' with (fst (resolve rs (d ++ [(q, v)]))) by now rewrite H. apply uget_keep. rewrite uget_app, U. cbn [uget]. now rewrite teqb_refl.
Qed.

(** ** The content *)
Lemma copy_blocks_ok ends bs : forall t raw t', copy_blocks ends t bs = Ok (raw, t') ->
  (exists raws, mapR (check_block true) bs = Ok raws /\ raw = concat raws) /\ (t' = true <-> t = true \/ exists b, In b bs /\ b_type b = T_RarMax) /\ (t = false -> t' = true -> ends = Ok tt).
Proof.
  induction bs as [|b bs IH]; intros t raw t' H; cbn [copy_blocks mapR] in *.
  - injection H as <- <-. split; [now exists []|]. split; [|congruence]. split; [auto|]. intros [H|(b & [] & _)]. exact H.
  - destruct (check_block true b) as [r|] eqn:C; cbn [bind] in *; [|discriminate]. destruct (if (b_type b =? T_RarMax) && negb t then ends else Ok tt) as [[]|] eqn:X; cbn [bind] in H; [|discriminate].
    destruct (copy_blocks ends (t || (b_type b =? T_RarMax)) bs) as [[raw1 t1]|] eqn:Y; cbn [bind fst snd] in H; [|discriminate]. injection H as <- <-. destruct (IH _ _ _ Y) as ((raws & -> & ->) & T & E). cbn [bind]. split; [now exists (r :: raws)|]. split.
    + rewrite T, orb_true_iff, N.eqb_eq. split.
      * intros [[H|H]|(b' & I & H)]; [now left|right; exists b; split; [now left|exact H]|right; exists b'; split; [now right|exact H]].
      * intros [H|(b' & [<-|I] & H)]; [left; now left|left; now right|right; now exists b'].
    + intros -> T'. cbn [orb negb] in *. destruct (N.eqb_spec (b_type b) T_RarMax) as [M|M]; cbn [andb] in X; [exact X|]. now apply E.
Qed.
Lemma copy_blocks_made ends bs : forall t raws, mapR (check_block true) bs = Ok raws -> t = true \/ ends = Ok tt -> exists t', copy_blocks ends t bs = Ok (concat raws, t') /\ (t = true -> t' = true).
Proof.
  induction bs as [|b bs IH]; intros t raws H E; cbn [copy_blocks mapR] in *; [apply ok_inj in H; subst raws; now exists t|].
  destruct (check_block true b) as [r|]; cbn [bind] in *; [|discriminate]. destruct (mapR (check_block true) bs) as [rs|]; cbn [bind] in H; [|discriminate]. apply ok_inj in H. subst raws.
  assert (X : (if (b_type b =? T_RarMax) && negb t then ends else Ok tt) = Ok tt). { destruct E as [-> | ->]; [now rewrite andb_false_r|now destruct (_ && _)]. }
  rewrite X. cbn [bind]. destruct (IH (t || (b_type b =? T_RarMax)) rs eq_refl) as (t' & -> & T); [destruct E as [->|E]; [now left|now right]|]. exists t'. cbn [bind fst snd concat]. split; [reflexivity|]. intros ->. now apply T.
Qed.
Lemma copy_vols_ok d ends rs : forall t b, copy_vols d ends t rs = Ok b ->
  exists us vols vs, Forall2 (fun r u => uget r d = Some u) rs us /\ Forall2 vol_of us vols /\ mapR (volume_bytes true) vols = Ok vs /\ b = concat vs /\
    (t = false -> (exists u, In u us /\ has_end u) -> ends = Ok tt).
Proof.
  induction rs as [|r rs IH]; intros t b H; cbn [copy_vols] in H; [apply ok_inj in H; subst b; exists [], [], []; split; [constructor|]; split; [constructor|]; split; [reflexivity|]; split; [reflexivity|]; intros _ (u & [] & _)|].
  destruct (uget r d) as [u|] eqn:U; [|discriminate]. destruct (rarfile_bytes (u_name u)) as [h|] eqn:R; cbn [bind] in H; [|discriminate]. unfold reader_fh in H. destruct (u_data u) as [dt|] eqn:D; cbn [bind] in H; [|discriminate].
  destruct (read_all dt) as [bs|] eqn:B; cbn [bind] in H; [|discriminate]. destruct (copy_blocks ends t bs) as [[raw t']|] eqn:C; cbn [bind fst snd] in H; [|discriminate]. destruct (copy_vols d ends t' rs) as [v|] eqn:V; cbn [bind] in H; [|discriminate].
  apply ok_inj in H. subst b. destruct (copy_blocks_ok _ _ _ _ _ C) as ((raws & M & ->) & T & E). destruct (IH _ _ V) as (us & vols & vs & F & G & W & -> & E').
  exists (u :: us), ((u_name u, dt) :: vols), ((h ++ concat raws) :: vs). split; [now constructor|]. split; [constructor; [split; [reflexivity|exact D]|exact G]|]. split; [|split; [cbn [concat]; now rewrite <- app_assoc|]].
  - cbn [mapR]. unfold volume_bytes at 1. cbn [fst snd]. rewrite R. cbn [bind]. rewrite B. cbn [bind]. rewrite M. cbn [bind]. rewrite W. reflexivity.
  - intros Et (u' & I & HE). destruct t' eqn:Et'; [now apply E|]. destruct I as [<-|I]; [|apply E'; [reflexivity|now exists u']]. exfalso. destruct HE as (dt' & bs' & b & D' & B' & I & TB). rewrite D in D'. injection D' as <-. rewrite B in B'. apply ok_inj in B'. subst bs'.
    assert (X : false = true) by (apply T; right; now exists b). discriminate.
Qed.
Lemma copy_vols_made d ends rs us vols vs : Forall2 (fun r u => uget r d = Some u) rs us -> Forall2 vol_of us vols -> mapR (volume_bytes true) vols = Ok vs -> ends = Ok tt -> forall t, copy_vols d ends t rs = Ok (concat vs).
Proof.
  intros F. revert vols vs. induction F as [|r u rs us U F IH]; intros vols vs G W En t; inversion G as [|x y l l' [N D] G']; subst; cbn [mapR copy_vols] in *; [apply ok_inj in W; now subst vs|].
  rewrite U. unfold volume_bytes at 1 in W. rewrite N. destruct (rarfile_bytes (fst y)) as [h|]; cbn [bind] in *; [|discriminate]. unfold reader_fh. rewrite D. destruct (read_all (snd y)) as [bs|]; cbn [bind] in *; [|discriminate]. destruct (mapR (check_block true) bs) as [raws|] eqn:M; cbn [bind] in W; [|discriminate].
  destruct (mapR (volume_bytes true) l') as [vs'|] eqn:W'; cbn [bind] in W; [|discriminate]. apply ok_inj in W. subst vs. destruct (copy_blocks_made (Ok tt) bs t raws M (or_intror eq_refl)) as (t' & -> & _). cbn [bind fst snd]. rewrite (IH l' vs' G' W' eq_refl t'). cbn [bind concat]. now rewrite <- app_assoc.
Qed.
Lemma all_ends_spec d rs : all_ends d rs = Ok tt <-> forall r, In r rs -> exists u, uget r d = Some u /\ u_last u = true.
Proof.
  induction rs as [|r rs IH]; cbn [all_ends]; [split; [intros _ ? []|reflexivity]|]. destruct (uget r d) as [u|] eqn:U.
  - destruct (u_last u) eqn:L; [rewrite IH|].
    + split; [intros H q [<-|I]; [now exists u|now apply H]|intros H q I; apply H; now right].
    + split; [discriminate|]. intros H. destruct (H r (or_introl eq_refl)) as (v & V & L'). congruence.
  - split; [discriminate|]. intros H. destruct (H r (or_introl eq_refl)) as (v & V & _). congruence.
Qed.
Lemma stores_ok us : Forall honest us -> exists ss, mapR store_bytes (readable us) = Ok ss /\ concat (map store_fh us) = concat ss.
Proof.
  induction 1 as [|u us H _ (ss & E1 & E2)]; [now exists []|]. cbn [readable flat_map map concat]. unfold store_fh at 1. destruct (u_data u) as [d|] eqn:D; [|exists ss; now split]. destruct (H d D) as (S & L & Z).
  cbn [app mapR]. pose proof (store_ok (u_name u, d) (storable_ok _ S) L) as X. fold (readable us). rewrite Z. unfold store_bytes in X |- * at 1. cbn [fst snd] in *. destruct (stored_header_bytes (u_name u) (lenN d)) as [h|]; cbn [bind] in *; [|discriminate]. rewrite E1. cbn [bind]. eexists. split; [reflexivity|]. cbn [concat]. now rewrite E2.
Qed.
Lemma Forall2_imp {X Y} (R Q : X -> Y -> Prop) l l' : (forall x y, R x y -> Q x y) -> Forall2 R l l' -> Forall2 Q l l'.
Proof. intros H. induction 1; constructor; auto. Qed.
Lemma fh_content app infiles allfiles stores b d st : create_srr_fh app infiles allfiles stores = (Ok b, d, st) -> allfiles <> [] -> Forall honest (stores ++ sfvs_of infiles) ->
  exists names us vols, collect_fh allfiles infiles = Ok names /\ Forall2 (called allfiles) names us /\ Forall2 vol_of us vols /\
    create_srr app (readable (stores ++ sfvs_of infiles)) vols true [] = Ok b /\ ((exists u, In u us /\ has_end u) -> Forall (fun u => u_last u = true) us).
Proof.
  unfold create_srr_fh. intros H NE HO. destruct infiles as [|i0 infiles0] eqn:EI; [discriminate|]. rewrite <- EI in *. clear EI i0 infiles0. destruct (srr_header_bytes app) as [h|] eqn:Eh; [|discriminate]. destruct (collect_fh allfiles infiles) as [[|r0 rs0]|] eqn:EC; try discriminate.
  set (rs := r0 :: rs0) in *. destruct allfiles as [|a0 al] eqn:EA; [contradiction|]. rewrite <- EA in *. destruct (resolve rs allfiles) as [d1 found] eqn:ER. destruct found; [|discriminate].
  destruct (copy_vols d1 (all_ends d1 rs) false rs) as [v|] eqn:EV; cbn [bind] in H; [|discriminate]. injection H as <- -> <-. destruct (copy_vols_ok _ _ _ _ _ EV) as (us & vols & vs & F & G & W & -> & E). exists rs, us, vols.
  split; [reflexivity|]. split; [|split; [exact G|split]].
  - clear - F ER. assert (C : forall r u, uget r d = Some u -> called allfiles r u). { intros r u U. apply uget_in in U. apply (resolve_called rs allfiles allfiles (called_refl allfiles) d); [now rewrite ER|exact U]. }
    exact (Forall2_imp _ _ _ _ C F).
  - unfold create_srr. rewrite Eh. cbn [bind]. destruct (stores_ok _ HO) as (ss & -> & ->). cbn [bind]. rewrite W. cbn [bind mapR concat]. now rewrite app_nil_r.
  - intros X. specialize (E eq_refl X). apply Forall_forall. intros u I. pose proof (proj1 (all_ends_spec d rs) E) as AE. clear - F I AE. induction F as [|r u' rs us U F IH]; [destruct I|]. destruct I as [<-|I]; [|apply IH; [exact I|intros q Q; apply AE; now right]]. destruct (AE r (or_introl eq_refl)) as (w & W & L). congruence.
Qed.
Lemma Forall2_in_l {X Y} (R : X -> Y -> Prop) l l' x : Forall2 R l l' -> In x l -> exists y, In y l' /\ R x y.
Proof. induction 1 as [|a b l l' H _ IH]; intros I; [destruct I|]. destruct I as [<-|I]; [exists b; split; [now left|exact H]|]. destruct (IH I) as (y & J & K). exists y. split; [now right|exact K]. Qed.
Lemma fh_made app infiles allfiles stores names us vols b : infiles <> [] -> NoDup (map fst allfiles) -> collect_fh allfiles infiles = Ok names -> names <> [] -> apart names ->
  Forall2 (picks allfiles) names us -> Forall2 vol_of us vols -> Forall (fun u => u_last u = true) us -> Forall honest (stores ++ sfvs_of infiles) ->
  create_srr app (readable (stores ++ sfvs_of infiles)) vols true [] = Ok b -> fst (fst (create_srr_fh app infiles allfiles stores)) = Ok b.
Proof.
  intros NI ND EC NN AP F G L HO H. unfold create_srr_fh. destruct infiles as [|i0 infiles0] eqn:EI; [contradiction|]. rewrite <- EI in *. clear EI i0 infiles0. unfold create_srr in H. destruct (srr_header_bytes app) as [h|]; cbn [bind] in H; [|discriminate].
  rewrite EC. destruct names as [|r0 rs0] eqn:EN; [contradiction|]. rewrite <- EN in *. clear EN r0 rs0. destruct (stores_ok _ HO) as (ss & Es & Ec). rewrite Es in H. cbn [bind] in H. destruct (mapR (volume_bytes true) vols) as [vs|] eqn:W; cbn [bind mapR] in H; [|discriminate]. apply ok_inj in H. subst b.
  assert (NA : exists a0 al, allfiles = a0 :: al). { destruct allfiles as [|a0 al]; [|eauto]. exfalso. destruct names as [|r rs]; [contradiction|]. inversion F as [|x y l l' P _]. apply picks_fits in P as (k & [] & _). }
  destruct NA as (a0 & al & EA). rewrite EA. rewrite <- EA. destruct (resolve_spec names allfiles [] ND ltac:(intros ? ? []) ltac:(intros ? ? []) AP) as [R1 R2]. rewrite app_nil_r in R1, R2.
  assert (T : snd (resolve names allfiles) = true). { apply R1. intros r I. destruct (Forall2_in_l _ _ _ _ F I) as (u & _ & P). exact (picks_fits _ _ _ P). }
  specialize (R2 T). destruct (resolve names allfiles) as [d found]. cbn [fst snd] in *. subst found. cbn [fst].
  assert (F' : Forall2 (fun r u => uget r d = Some u) names us). { clear - F R2. induction F as [|r u names us P F IH]; constructor; [apply R2; [now left|exact P]|]. apply IH. intros q w I. apply R2. now right. }
  rewrite (copy_vols_made d (all_ends d names) names us vols vs F' G W).
  - cbn [bind]. rewrite Ec. cbn [concat]. now rewrite app_nil_r.
  - apply all_ends_spec. intros r I. destruct (Forall2_in_l _ _ _ _ F' I) as (u & J & U). exists u. split; [exact U|]. rewrite Forall_forall in L. now apply L.
Qed.
Lemma fh_missing app infiles allfiles stores names r h : infiles <> [] -> allfiles <> [] -> srr_header_bytes app = Ok h -> NoDup (map fst allfiles) -> collect_fh allfiles infiles = Ok names -> apart names ->
  In r names -> (forall k, In k (map fst allfiles) -> ~ fits r k) -> fst (fst (create_srr_fh app infiles allfiles stores)) = Err FileNotFound.
Proof.
  intros NI NA EH ND EC AP I NF. unfold create_srr_fh. destruct infiles as [|i0 infiles0] eqn:EI; [contradiction|]. rewrite <- EI in *. clear EI i0 infiles0. rewrite EH, EC. destruct names as [|r0 rs0] eqn:EN; [destruct I|]. rewrite <- EN in *. clear EN r0 rs0. destruct allfiles as [|a0 al] eqn:EA; [contradiction|]. rewrite <- EA in *.
  destruct (resolve_spec names allfiles [] ND ltac:(intros ? ? []) ltac:(intros ? ? []) AP) as [R1 _]. rewrite app_nil_r in R1. destruct (resolve names allfiles) as [d found]. cbn [fst snd] in *. destruct found; [|reflexivity]. exfalso. destruct (proj1 R1 eq_refl r I) as (k & J & K). exact (NF k J K).
Qed.

(** ** SFV files *)
Lemma pjoin_nil n : pjoin (dirname (str "s.sfv")) n = n.
Proof. change (dirname (str "s.sfv")) with (@nil N). unfold pjoin. destruct (first_is SLASH n); reflexivity. Qed.
Lemma sfv_fh u d : u_data u = Some d -> handle_sfv_fh u = handle_sfv [(str "s.sfv", d)] (str "s.sfv").
Proof. intros D. unfold handle_sfv_fh, handle_sfv, sfv_file. rewrite D. cbn [fs_get]. rewrite teqb_refl. destruct (parse_sfv_data d) as [[[[|e0 es] cs] rs]|e]; cbn [bind]; try reflexivity. f_equal. apply map_ext. intros x. now rewrite pjoin_nil. Qed.
Lemma map_id_text (l : list text) : map (pjoin (dirname (str "s.sfv"))) l = l.
Proof. rewrite <- (map_id l) at 2. apply map_ext. intros x. apply pjoin_nil. Qed.
Lemma collect_posted d sfvs sets : Forall2 sfv_posted sfvs sets -> collect_fh d (map ISfv sfvs) = Ok (set_names sets).
Proof.
  unfold set_names. induction 1 as [|u [s n] sfvs sets (Hs & Hn & Hl & data & es & cs & rs & Hd & Hp & Hset) _ IH]; [reflexivity|]. cbn [map collect_fh concat fst snd] in *. rewrite (sfv_fh u data Hd).
  rewrite (sfv_set [(str "s.sfv", data)] (str "s.sfv") data es cs rs eq_refl Hp s n Hs Hn Hl Hset), map_id_text, IH. reflexivity.
Qed.
Lemma sfvs_map sfvs : sfvs_of (map ISfv sfvs) = sfvs.
Proof. unfold sfvs_of. induction sfvs as [|u l IH]; [reflexivity|]. cbn [map flat_map app]. now rewrite IH. Qed.
Lemma posted_made app sfvs sets allfiles stores us vols b : Forall2 sfv_posted sfvs sets -> sfvs <> [] -> NoDup (map fst allfiles) -> apart (set_names sets) ->
  Forall2 (picks allfiles) (set_names sets) us -> Forall2 vol_of us vols -> Forall (fun u => u_last u = true) us -> Forall honest (stores ++ sfvs) ->
  create_srr app (readable (stores ++ sfvs)) vols true [] = Ok b -> usenet_srr app sfvs allfiles stores = Ok (Some (false, b)).
Proof.
  intros F NS ND AP P V L HO H. unfold usenet_srr. assert (M : fst (fst (create_srr_fh app (map ISfv sfvs) allfiles stores)) = Ok b).
  { apply (fh_made app (map ISfv sfvs) allfiles stores (set_names sets) us vols b); try assumption.
    - destruct sfvs; [contradiction|discriminate].
    - now apply collect_posted.
    - destruct F as [|u [s n] sfvs sets (_ & Hn & _) _]; [contradiction|]. unfold set_names. cbn [map concat fst snd] in *. destruct n as [|n]; [lia|]. discriminate.
    - now rewrite sfvs_map.
    - now rewrite sfvs_map. }
  destruct (create_srr_fh app (map ISfv sfvs) allfiles stores) as [[r d] st]. cbn [fst] in M. now subst r.
Qed.

(** ** Without an SFV file *)
Lemma first_is_rar t : is_first t = true -> is_rar t = true.
Proof.
  unfold is_first, is_rar. intros H. apply orb_true_iff in H as [H|H]; [apply orb_true_iff in H as [H|H]|].
  - apply andb_true_iff in H as [H _]. unfold match_rar. now rewrite H.
  - apply VolFacts.ends_with_spec in H as (p & ->). rewrite rev_app_distr. apply orb_true_iff. right. reflexivity.
  - apply VolFacts.ends_with_spec in H as (p & ->). rewrite rev_app_distr. apply orb_true_iff. right. reflexivity.
Qed.
Lemma filter_filter {X} (p q : X -> bool) l : (forall x, p x = true -> q x = true) -> filter p (filter q l) = filter p l.
Proof. intros H. induction l as [|x l IH]; [reflexivity|]. cbn [filter]. destruct (q x) eqn:Q; cbn [filter]; rewrite IH; [reflexivity|]. destruct (p x) eqn:P; [apply H in P; congruence|reflexivity]. Qed.
Lemma ends_rar f : VolName.ends_with (str ".rar") (VolName.lower f) = true -> exists a x y z, f = a ++ [46; x; y; z] /\ is_rar f = true.
Proof.
  intros E. apply VolFacts.ends_with_spec in E as (p & E). assert (S : exists a b, f = a ++ b /\ VolName.lower b = str ".rar").
  { unfold VolName.lower in *. exists (firstn (length p) f), (skipn (length p) f). split; [now rewrite firstn_skipn|]. rewrite <- skipn_map, E. rewrite skipn_app, skipn_all, Nat.sub_diag. reflexivity. }
  destruct S as (a & b & -> & S). change (str ".rar") with [46; 114; 97; 114] in *. unfold VolName.lower in S. do 4 (destruct b as [|? b]; [discriminate|]). destruct b; [|discriminate]. cbn [map] in S. injection S as S1 S2 S3 S4. unfold VolName.lower1 in *.
  assert (n = 46) by (destruct ((65 <=? n) && (n <=? 90)) eqn:X; lia). subst n. exists a, n0, n1, n2. split; [reflexivity|]. apply is_rar_spec. left. exists a, [46; n0; n1; n2]. split; [reflexivity|]. change (str ".rar") with [46; 114; 97; 114]. clear E S1.
  unfold up_to_case. apply Forall2_cons; [now left|]. repeat (apply Forall2_cons; [match goal with H : (if ?c then _ else ?x) = _ |- ?x = _ \/ _ => destruct c eqn:?; lia end|]). constructor.
Qed.
Lemma first_more l x : first_rars (filter is_rar l) = [x] -> 1 <? lenN (filter is_rar l) = true -> first_rars l = [x].
Proof.
  intros H L. unfold first_rars in *. rewrite (filter_filter _ _ _ first_is_rar) in H. destruct (drop_001 _ 0 (filter is_first l)); [|exact H]. rewrite L in H.
  rewrite (filter_filter (fun f => VolName.ends_with (str ".rar") (VolName.lower f))) in H by (intros f E; destruct (ends_rar f E) as (? & ? & ? & ? & _ & R); exact R).
  set (fr := filter (fun f => VolName.ends_with (str ".rar") (VolName.lower f)) l) in *.
  assert (M : filter (fun f => mem_text (cut_end 3 f ++ str "r00") (filter is_rar l)) fr = filter (fun f => mem_text (cut_end 3 f ++ str "r00") l) fr).
  { apply filter_ext_in. intros f I. apply filter_In in I as [_ E]. destruct (ends_rar f E) as (a & u & v & w & -> & _). assert (R : is_rar (cut_end 3 (a ++ [46; u; v; w]) ++ str "r00") = true).
    { unfold cut_end. rewrite rev_app_distr. cbn [rev app]. change (dropN 3 (w :: v :: u :: 46 :: rev a)) with (46 :: rev a). cbn [rev]. rewrite rev_involutive, <- app_assoc. apply is_rar_spec. right. exists a, 114, 48, 48. split; [reflexivity|]. unfold is_digit. lia. }
    apply eq_true_iff_eq. rewrite !mem_text_In, filter_In. tauto. }
  rewrite M in H. destruct (filter _ fr); [discriminate|exact H].
Qed.
Lemma walk_any ex s old n : style_ok s -> told s old -> N.of_nat n < vol_limit s -> (forall i, (i < n)%nat -> ex (vol_name s (N.of_nat i)) = true) -> ex (vol_name s (N.of_nat n)) = false -> forall k i fuel, (i + k = n)%nat -> (k <= fuel)%nat ->
  walk fuel ex old (vol_name s (N.of_nat i)) = Ok (map (fun i => vol_name s (N.of_nat i)) (seq i k)).
Proof.
  intros Hs Ht Hl Hi Hn. induction k as [|k IH]; intros i fuel E F.
  - replace i with n by lia. destruct fuel; cbn [walk]; now rewrite Hn.
  - destruct fuel as [|fuel]; [lia|]. cbn [walk]. rewrite (Hi i) by lia. rewrite next_name by (auto; lia). cbn [bind]. replace (N.of_nat i + 1) with (N.of_nat (Datatypes.S i)) by lia. rewrite IH by lia. reflexivity.
Qed.
Lemma old_made bs old : (forall b, In b bs -> b_type b = T_RarVolume -> exists x y, b_kind b = KVolume x y) -> numbering bs old -> old_style false bs = Ok old.
Proof.
  intros Hk Ho. assert (O : exists o, old_style false bs = Ok o). { generalize false. clear - Hk. induction bs as [|b bs IH]; intros o; cbn [old_style]; [now exists o|]. specialize (IH (fun b' I => Hk b' (or_intror I))). destruct (N.eqb_spec (b_type b) T_RarVolume) as [T|T]; [|apply IH]. destruct (Hk b (or_introl eq_refl) T) as (x & y & ->). apply IH. }
  destruct O as (o & O). rewrite O. f_equal. apply (numbering_fun bs); [|exact Ho]. destruct (old_ok _ _ _ O) as [X|X]; [now left|now right].
Qed.
Lemma filter_perm {X} (p : X -> bool) l l' : Permutation l l' -> Permutation (filter p l) (filter p l').
Proof.
  induction 1 as [|x l l' H IH|x y l|l l2 l3 H1 IH1 H2 IH2]; cbn [filter]; [constructor| | |exact (perm_trans IH1 IH2)].
  - destruct (p x); [now constructor|exact IH].
  - destruct (p x), (p y); try apply Permutation_refl. apply perm_swap.
Qed.
Lemma filter_none {X} (p : X -> bool) l : (forall x, In x l -> p x = false) -> filter p l = [].
Proof. induction l as [|x l IH]; intros H; [reflexivity|]. cbn [filter]. rewrite (H x (or_introl eq_refl)). apply IH. intros y Y. apply H. now right. Qed.
Lemma no_sfv app sfvs allfiles stores s n others us vols b d0 bs old : useless sfvs -> NoDup (map fst allfiles) -> (forall k u, In (k, u) allfiles -> u_name u = k) ->
  style_ok s -> (1 < n)%nat -> N.of_nat n < vol_limit s -> (forall i, ~ In 47 (vol_name s i)) -> apart (vol_names s n) ->
  Permutation (map fst allfiles) (vol_names s n ++ others) -> Forall (fun o => ~ rar_ending o) others ->
  Forall2 (fun r u => In (r, u) allfiles) (vol_names s n) us -> Forall2 vol_of us vols -> Forall (fun u => u_last u = true) us -> Forall honest stores ->
  nth_error vols 0 = Some (vol_name s 0, d0) -> read_all d0 = Ok bs -> (forall b, In b bs -> b_type b = T_RarVolume -> exists x y, b_kind b = KVolume x y) -> numbering bs old -> told s old ->
  create_srr app (readable stores) vols true [] = Ok b -> usenet_srr app sfvs allfiles stores = Ok (Some (true, b)).
Proof.
  intros HU ND NK Hs Hn Hl Hsl AP PE HO2 FU VO LA HO N0 R0 K0 NU TO H.
  assert (E1 : exists e, create_srr_fh app (map ISfv sfvs) allfiles stores = (Err e, allfiles, stores) /\ is_value_error e = true).
  { unfold create_srr_fh. destruct HU as [->|(u & r & d & cs & rs & -> & D & P)]; [exists ValueError; now split|]. cbn [map]. unfold create_srr in H. destruct (srr_header_bytes app); cbn [bind] in H; [|discriminate]. cbn [collect_fh]. unfold handle_sfv_fh. rewrite D, P. cbn [bind]. exists EmptySfv. now split. }
  destruct E1 as (e & E1 & E2). unfold usenet_srr. rewrite E1, E2.
  assert (FR : filter is_rar (map fst allfiles) = filter is_rar (map fst allfiles)) by reflexivity.
  assert (PF : Permutation (filter is_rar (map fst allfiles)) (vol_names s n)).
  { rewrite (filter_perm is_rar _ _ PE), filter_app. rewrite (filter_none is_rar others), app_nil_r.
    - rewrite filter_id; [apply Permutation_refl|]. intros x I. apply in_map_iff in I as (i & <- & I). apply in_seq in I. apply name_rar; [exact Hs|lia].
    - intros x I. rewrite Forall_forall in HO2. specialize (HO2 x I). destruct (is_rar x) eqn:R; [|reflexivity]. exfalso. apply HO2. now apply is_rar_spec. }
  assert (LN : length (filter is_rar (map fst allfiles)) = n) by (rewrite (Permutation_length PF); unfold vol_names; now rewrite map_length, seq_length).
  rewrite (first_more (map fst allfiles) (vol_name s 0)); [|apply (first_one s n); [exact Hs|lia|lia|exact PF]|rewrite lenN_length, LN; lia]. clear FR.
  assert (INV : forall i, (i < n)%nat -> exists u, uget (vol_name s (N.of_nat i)) allfiles = Some u).
  { intros i I. destruct (uget (vol_name s (N.of_nat i)) allfiles) as [u|] eqn:U; [now exists u|]. exfalso. apply (proj1 (uget_none _ _) U). apply (Permutation_in _ (Permutation_sym PE)). apply in_app_iff. left. unfold vol_names. apply in_map_iff. exists i. split; [reflexivity|]. apply in_seq. lia. }
  destruct (INV 0%nat ltac:(lia)) as (u0 & U0). change (N.of_nat 0) with 0 in U0. cbn [flat_map]. rewrite U0. cbn [Datatypes.app].
  pose proof (NK _ _ (uget_in _ _ _ U0)) as EN. rewrite EN.
  assert (D0 : u_data u0 = Some d0).
  { destruct n as [|n']; [lia|]. unfold vol_names in FU. cbn [seq map] in FU. inversion FU as [|x y l l' I FU' E3 E4]; subst. inversion VO as [|x' y' l2 l3 [V1 V2] VO' E5 E6]; subst. cbn [nth_error] in N0. injection N0 as ->. cbn [snd] in V2. change (N.of_nat 0) with 0 in I. apply (uget_nodup _ _ _ ND) in I. congruence. }
  assert (HR : handle_rar_fh allfiles u0 = Ok (vol_names s n)).
  { unfold handle_rar_fh, reader_fh. rewrite D0, R0. cbn [bind]. rewrite (old_made bs old K0 NU). cbn [bind]. rewrite EN. rewrite (first_one s 1 [vol_name s 0] Hs) by (try lia; apply Permutation_refl). rewrite teqb_refl.
    apply (walk_any (listed allfiles) s old n Hs TO Hl) with (k := n) (i := 0%nat); [| |lia|].
    - intros i I. unfold listed. rewrite basename_nosep by apply Hsl. destruct (INV i I) as (u & ->). reflexivity.
    - unfold listed. rewrite basename_nosep by apply Hsl. destruct (uget (vol_name s (N.of_nat n)) allfiles) as [u|] eqn:U; [|reflexivity]. exfalso. apply uget_in in U. apply (in_map fst) in U. cbn [fst] in U. apply (Permutation_in _ PE) in U. apply in_app_iff in U as [U|U].
      + unfold vol_names in U. apply in_map_iff in U as (i & E & I). apply in_seq in I. apply vol_name_inj in E; [lia|exact Hs|lia|exact Hl].
      + rewrite Forall_forall in HO2. apply (HO2 _ U). apply is_rar_spec. now apply name_rar.
    - pose proof (Permutation_length PE) as X. rewrite map_length, app_length in X. unfold vol_names in X. rewrite map_length, seq_length in X. lia. }
  assert (CO : collect_fh allfiles [IRar (vol_name s 0)] = Ok (vol_names s n)). { cbn [collect_fh]. rewrite U0, HR. cbn [bind]. now rewrite app_nil_r. }
  rewrite (fh_made app [IRar (vol_name s 0)] allfiles stores (vol_names s n) us vols b); [reflexivity|discriminate|exact ND|exact CO| |exact AP| |exact VO|exact LA| |].
  - destruct n; [lia|discriminate].
  - clear - FU. induction FU; constructor; [now left|assumption].
  - cbn. now rewrite app_nil_r.
  - cbn. now rewrite app_nil_r.
Qed.
Lemma sfv_fh_any u data es cs rs l : u_data u = Some data -> parse_sfv_data data = Ok (es, cs, rs) -> handle_sfv_fh u = Ok l ->
  (forall e, In e es -> rar_ending (e_name e) -> exists n, same_text (e_name e) n /\ In n l) /\ (forall n, In n l -> exists e, In e es /\ rar_ending (e_name e) /\ n = e_name e).
Proof.
  intros D P H. rewrite (sfv_fh u data D) in H. destruct (sfv_any [(str "s.sfv", data)] (str "s.sfv") data es cs rs eq_refl P l H) as [A B]. split.
  - intros e I R. destruct (A e I R) as (n & S & J). rewrite pjoin_nil in J. now exists n.
  - intros n I. destruct (B n I) as (e & J & R & ->). exists e. now rewrite pjoin_nil.
Qed.
Lemma collect_known infiles d n : forall l, collect_fh d infiles = Ok l -> In (IRar n) infiles -> In n (map fst d).
Proof.
  induction infiles as [|i r IH]; intros l H I; [destruct I|]. cbn [collect_fh] in H. bindinv H. bindinv H. destruct I as [->|I]; [|eauto].
  destruct (uget n d) as [u|] eqn:EU; [|discriminate]. apply uget_in in EU. apply in_map_iff. exists (n, u). auto.
Qed.
Theorem fh_unknown app infiles allfiles stores n b : In (IRar n) infiles -> ~ In n (map fst allfiles) -> fst (fst (create_srr_fh app infiles allfiles stores)) <> Ok b.
Proof.
  intros I N. unfold create_srr_fh. destruct infiles as [|i r] eqn:Ei; [destruct I|]. rewrite <- Ei in *. clear Ei. destruct (srr_header_bytes app); [|cbn; discriminate].
  destruct (collect_fh allfiles infiles) as [l|e] eqn:E; [|cbn; discriminate]. destruct N. exact (collect_known _ _ _ _ E I).
Qed.
