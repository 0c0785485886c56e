(** PreprarFacts: versions in the names of installers, and the executables taken out of them. *)
From Verif Require Import VolName VolSpec VolFacts.
From Verif Require Import Base BaseFacts Rar Srr SrrFacts Rarexe RarexeSpec RarexeFacts Preprar PreprarSpec.

(** ** Expressions *)
Lemma in_bind {A} (p : pat) k t (y : A) : In y (p_bind p k t) <-> exists a r, In (a, r) (p t) /\ In y (k a r).
Proof.
  unfold p_bind. rewrite in_flat_map. split.
  - intros ([a r] & H1 & H2). eauto.
  - intros (a & r & H1 & H2). exists (a, r). auto.
Qed.
Lemma in_lit p t a r : In (a, r) (p_lit p t) <-> a = p /\ t = p ++ r.
Proof.
  unfold p_lit. destruct (lit p t) as [q|] eqn:E.
  - apply lit_spec in E. subst t. cbn. split.
    + intros [H|[]]. now injection H as <- <-.
    + intros [-> H]. apply app_inv_head in H. left. now subst.
  - split; [intros []|]. intros [-> H]. apply lit_spec in H. congruence.
Qed.
Lemma in_char f t a r : In (a, r) (p_char f t) <-> exists c, f c = true /\ a = [c] /\ t = c :: r.
Proof.
  unfold p_char. destruct t as [|c t]; [split; [intros []|intros (c & _ & _ & H); discriminate H]|]. destruct (f c) eqn:E.
  - cbn. split; [intros [H|[]]; injection H as <- <-; eauto|]. intros (d & _ & -> & H). left. now injection H as -> ->.
  - split; [intros []|]. intros (d & H & _ & X). injection X as -> ->. congruence.
Qed.
Lemma in_opt p t a r : In (a, r) (p_opt p t) <-> In (a, r) (p t) \/ (a = [] /\ r = t).
Proof. unfold p_opt. rewrite in_app_iff. cbn. split; (intros [H|H]; [now left|right]); [destruct H as [H|[]]; now injection H as <- <-|left; destruct H; now subst]. Qed.
Lemma in_seq p q t a r : In (a, r) (p_seq p q t) <-> exists u s v, In (u, s) (p t) /\ In (v, r) (q s) /\ a = u ++ v.
Proof.
  unfold p_seq. rewrite in_flat_map. split.
  - intros ([u s] & H1 & H2). apply in_map_iff in H2 as ([v w] & H2 & H3). cbn in H2, H3. injection H2 as <- <-. eauto 10.
  - intros (u & s & v & H1 & H2 & ->). exists (u, s). split; [exact H1|]. apply in_map_iff. exists (v, r). auto.
Qed.
Lemma in_beta t a r : In (a, r) (p_beta t) <-> beta_text a /\ t = a ++ r.
Proof.
  unfold p_beta. rewrite in_opt, in_seq. unfold beta_text. split.
  - intros [(u & s & v & H1 & H2 & ->)|[-> ->]]; [|auto]. apply in_lit in H1 as [-> ->]. apply in_char in H2 as (d & Hd & -> & ->). split; [right; exists d; split; [now apply digit_spec|reflexivity]|reflexivity].
  - intros [[->|(d & Hd & ->)] ->]; [now right|]. left. exists [98], (d :: r), [d]. split; [now apply in_lit|]. split; [|reflexivity]. apply in_char. exists d. split; [now apply digit_spec|auto].
Qed.
Lemma alpha_spec c : alpha c = true <-> letter c. Proof. unfold alpha, letter. lia. Qed.
Lemma skip_spec t : exists p, t = p ++ skip_alpha t /\ Forall letter p.
Proof.
  induction t as [|c t (p & H1 & H2)]; cbn [skip_alpha]; [exists []; auto|]. destruct (alpha c) eqn:E.
  - exists (c :: p). split; [cbn; congruence|]. constructor; [now apply alpha_spec|exact H2].
  - exists []. auto.
Qed.
Lemma skip_app p t : Forall letter p -> skip_alpha (p ++ t) = skip_alpha t.
Proof. induction 1 as [|c p Hc Hp IH]; [reflexivity|]. cbn [app skip_alpha]. apply alpha_spec in Hc. now rewrite Hc. Qed.
Lemma num2 b c : num [b; c] = (b - 48) * 10 + (c - 48).
Proof. unfold num. cbn [fold_left]. lia. Qed.
Lemma num1 b : num [b] = b - 48.
Proof. unfold num. cbn [fold_left]. lia. Qed.

(** ** Only such names *)
Lemma win_only n v : In v (win_tag n) -> exists rest, three n v rest \/ two n v rest.
Proof.
  unfold win_tag. destruct n as [|h n']; [intros []|]. destruct (alpha h) eqn:Eh; [|intros []]. set (n := h :: n'). intros H.
  destruct (skip_spec n) as (p & En & Fp). assert (Hp : p <> []).
  { intros ->. cbn [app] in En. subst n. cbn [skip_alpha] in En. rewrite Eh in En. apply (f_equal (@length _)) in En. destruct (skip_spec n') as (q & E & _). rewrite E in En at 1. cbn in En. rewrite app_length in En. lia. }
  apply in_bind in H as (x & r1 & Hx & H). apply in_bind in H as (a & r2 & Ha & H). apply in_bind in H as (s & r3 & Hs & H). apply in_bind in H as (beta & rest & Hb & H).
  apply in_char in Ha as (ca & Da & -> & ->). apply in_beta in Hb as [Hb ->]. apply digit_spec in Da.
  assert (Hx' : (x = [] \/ x = str "-x64-") /\ skip_alpha n = x ++ ca :: r2).
  { apply in_opt in Hx as [Hx|[-> E]]; [apply in_lit in Hx as [-> E]; auto|auto]. }
  destruct Hx' as [Hx' Er]. rewrite Er in En. destruct rest as [|r0 rest]; [destruct H|]. destruct H as [H|[]]. exists (r0 :: rest).
  apply in_seq in Hs as (u & t & w & Hu & Hw & ->). apply in_char in Hu as (cb & Db & -> & ->). apply digit_spec in Db. apply in_opt in Hw as [Hw|[-> Ew]].
  - apply in_char in Hw as (cc & Dc & -> & ->). apply digit_spec in Dc. left. exists p, x, ca, cb, cc, beta. repeat (split; [first [assumption|discriminate|repeat (apply Forall_cons; [assumption|]); apply Forall_nil]|]).
    rewrite <- H. unfold new_tag. cbn [lenN app]. change (N.succ (N.succ 0) =? 1) with false. cbv iota. cbn [app]. now rewrite num1, num2.
  - right. subst t. exists p, x, ca, cb, beta. repeat (split; [first [assumption|discriminate|repeat (apply Forall_cons; [assumption|]); apply Forall_nil]|]).
    rewrite <- H. unfold new_tag. cbn [lenN app]. change (N.succ 0 =? 1) with true. cbv iota. change (str "0") with [48]. cbn [app]. rewrite num1, num2. f_equal. lia.
Qed.
Lemma nix_only n v : In v (nix_tag n) -> exists rest, unix n v rest.
Proof.
  unfold nix_tag. intros H.
  apply in_bind in H as (w1 & r1 & H1 & H). apply in_bind in H as (os & r2 & H2 & H). apply in_bind in H as (w2 & r3 & H3 & H). apply in_bind in H as (x & r4 & H4 & H).
  apply in_bind in H as (a & r5 & H5 & H). apply in_bind in H as (w3 & r6 & H6 & H). apply in_bind in H as (s & r7 & H7 & H). apply in_bind in H as (dot & r8 & H8 & H).
  apply in_bind in H as (beta & r9 & H9 & H). apply in_bind in H as (w4 & r10 & H10 & H). apply in_bind in H as (z & r11 & H11 & H). apply in_bind in H as (w5 & r12 & H12 & H).
  apply in_lit in H1 as [-> ->]. apply in_lit in H3 as [-> ->]. apply in_char in H5 as (ca & Da & -> & ->). apply in_lit in H6 as [-> ->]. apply in_beta in H9 as [Hb ->]. apply in_lit in H10 as [-> ->].
  apply in_char in H11 as (cz & _ & -> & ->). apply in_lit in H12 as [-> ->]. apply digit_spec in Da.
  assert (H2' : In os [str "osx"; str "linux"; str "bsd"] /\ r1 = os ++ str "-" ++ r3).
  { rewrite !in_app_iff in H2. destruct H2 as [H2|[H2|H2]]; apply in_lit in H2 as [-> ->]; (split; [cbn; auto|reflexivity]). }
  destruct H2' as [Hos ->]. assert (H4' : (x = [] \/ x = str "x64-") /\ r3 = x ++ ca :: str "." ++ r6).
  { apply in_opt in H4 as [H4|[-> H4]]; [apply in_lit in H4 as [-> ->]|]; auto. }
  destruct H4' as [Hx ->]. assert (H8' : (dot = [] \/ dot = [46]) /\ r7 = dot ++ beta ++ str ".tar" ++ cz :: str "gz" ++ r12).
  { apply in_opt in H8 as [H8|[-> H8]]; [apply in_lit in H8 as [-> ->]|]; auto. }
  destruct H8' as [Hdot ->]. apply in_seq in H7 as (u & t & w & Hu & Hw & ->). apply in_char in Hu as (cb & Db & -> & ->). apply digit_spec in Db.
  destruct H as [H|[]]. exists r12. apply in_opt in Hw as [Hw|[-> Hw]].
  - apply in_seq in Hw as (u & t' & w' & Hu & Hw & ->). apply in_lit in Hu as [-> ->]. apply in_char in Hw as (cc & Dc & -> & ->). apply digit_spec in Dc.
    exists os, x, ca, cb, [46; cc], dot, beta, cz. repeat (split; [first [assumption|right; exists cc; auto]|]). split; [reflexivity|].
    rewrite <- H. unfold new_tag. change (str ".") with [46]. cbn [lenN app]. change (N.succ (N.succ (N.succ 0)) =? 1) with false. cbv iota. cbn [filter].
    unfold digit_c in *. replace (cb =? 46) with false by lia. replace (cc =? 46) with false by lia. cbn [negb filter]. change (46 =? 46) with true. cbn [negb]. now rewrite num1, num2.
  - subst t. exists os, x, ca, cb, [], dot, beta, cz. repeat (split; [first [assumption|left; reflexivity]|]). split; [reflexivity|].
    rewrite <- H. unfold new_tag. cbn [lenN app]. change (N.succ 0 =? 1) with true. cbv iota. change (str "0") with [48]. cbn [app]. now rewrite num1, num2.
Qed.
Theorem tag_only n v : versiontag n = Some v -> exists rest, three n v rest \/ two n v rest \/ unix n v rest.
Proof.
  unfold versiontag. destruct (win_tag n) as [|x l] eqn:E.
  - destruct (nix_tag n) as [|y l] eqn:F; [discriminate|]. intros H. apply some_inj in H as ->. destruct (nix_only n v) as (r & H); [rewrite F; now left|]. eauto.
  - intros H. apply some_inj in H as ->. destruct (win_only n v) as (r & [H|H]); [rewrite E; now left| |]; eauto.
Qed.

(** ** All such names *)
Lemma bind_hd {A} (p : pat) k t a r (y : A) : (exists l, p t = (a, r) :: l) -> (exists m, k a r = y :: m) -> exists m, p_bind p k t = y :: m.
Proof. intros [l H] [m M]. unfold p_bind. rewrite H. cbn [flat_map fst snd]. rewrite M. cbn [app]. eauto. Qed.
Lemma lit_hd p r : p_lit p (p ++ r) = [(p, r)].
Proof. unfold p_lit. replace (lit p (p ++ r)) with (Some r); [reflexivity|]. symmetry. now apply lit_spec. Qed.
Lemma char_hd c r : digit_c c -> p_char digit (c :: r) = [([c], r)].
Proof. intros H. apply digit_spec in H. unfold p_char. now rewrite H. Qed.
Lemma x64_hd x a r : x = [] \/ x = str "-x64-" -> digit_c a -> exists l, p_opt (p_lit (str "-x64-")) (x ++ a :: r) = (x, a :: r) :: l.
Proof.
  intros [-> | ->] H; unfold p_opt.
  - exists []. cbn [app]. assert (E : p_lit (str "-x64-") (a :: r) = []); [|now rewrite E]. unfold p_lit, lit. change (str "-x64-") with (45 :: str "x64-"). cbn [starts_with]. unfold digit_c in H. now replace (45 =? a) with false by lia.
  - rewrite lit_hd. cbn [app]. eexists. reflexivity.
Qed.
Lemma beta_hd beta rest : beta_text beta -> (beta = [] -> no_beta rest) -> exists l, p_beta (beta ++ rest) = (beta, rest) :: l.
Proof.
  intros [-> | (d & Hd & ->)] H; unfold p_beta, p_opt, p_seq.
  - specialize (H eq_refl). cbn [app]. exists []. assert (E : flat_map (fun x => map (fun y => (fst x ++ fst y, snd y)) (p_char digit (snd x))) (p_lit (str "b") rest) = []); [|now rewrite E].
    unfold p_lit. destruct (lit (str "b") rest) as [q|] eqn:E; [|reflexivity]. apply lit_spec in E. cbn [flat_map fst snd]. destruct q as [|d q]; [reflexivity|]. unfold p_char. destruct (digit d) eqn:D; [|reflexivity].
    apply digit_spec in D. now destruct (H d q E).
  - change ([98; d] ++ rest) with (str "b" ++ d :: rest). rewrite lit_hd. cbn [flat_map fst snd]. rewrite (char_hd d rest Hd). cbn. eauto.
Qed.
Lemma small2_hd b c r : digit_c b -> digit_c c -> exists l, p_seq (p_char digit) (p_opt (p_char digit)) (b :: c :: r) = ([b; c], r) :: l.
Proof. intros H1 H2. unfold p_seq, p_opt. rewrite (char_hd b _ H1). cbn [flat_map fst snd]. rewrite (char_hd c _ H2). cbn. eauto. Qed.
Lemma small1_hd b r : digit_c b -> no_digit r -> p_seq (p_char digit) (p_opt (p_char digit)) (b :: r) = [([b], r)].
Proof.
  intros H1 H2. unfold p_seq, p_opt. rewrite (char_hd b _ H1). cbn [flat_map fst snd]. assert (E : p_char digit r = []); [|now rewrite E].
  unfold p_char. destruct r as [|d q]; [reflexivity|]. destruct (digit d) eqn:D; [|reflexivity]. apply digit_spec in D. now destruct (H2 d q eq_refl).
Qed.
Lemma skip_not x r : x = [] \/ x = str "-x64-" -> forall a, digit_c a -> skip_alpha (x ++ a :: r) = x ++ a :: r.
Proof. intros [-> | ->] a H; [|reflexivity]. cbn [app skip_alpha]. unfold digit_c in H. assert (E : alpha a = false) by (unfold alpha; lia). now rewrite E. Qed.
Lemma win_head p x a r : p <> [] -> Forall letter p -> x = [] \/ x = str "-x64-" -> digit_c a ->
  (match p ++ x ++ a :: r with c :: _ => alpha c | [] => false end) = true /\ skip_alpha (p ++ x ++ a :: r) = x ++ a :: r.
Proof.
  intros Hp Fp Hx Ha. split; [|rewrite skip_app by exact Fp; now apply skip_not]. destruct p; [now destruct Hp|]. inversion Fp; subst. now apply alpha_spec.
Qed.
Lemma win3 n v rest : three n v rest -> (t_beta v = [] -> no_beta rest) -> exists l, win_tag n = v :: l.
Proof.
  intros (p & x & a & b & c & beta & Hp & Fp & Hx & Fd & Hb & Hr & -> & ->) Hc. cbn [t_beta] in Hc.
  inversion_clear Fd as [|? ? Da F1]. inversion_clear F1 as [|? ? Db F2]. inversion_clear F2 as [|? ? Dc _].
  change ([a; b; c] ++ beta ++ rest) with (a :: b :: c :: beta ++ rest). destruct (win_head p x a (b :: c :: beta ++ rest) Hp Fp Hx Da) as [W1 W2].
  unfold win_tag. rewrite W2. destruct (p ++ x ++ a :: b :: c :: beta ++ rest) as [|h t] eqn:Et; [discriminate W1|]. rewrite W1.
  eapply bind_hd; [apply (x64_hd x a _ Hx Da)|]. eapply bind_hd; [exists []; apply (char_hd a _ Da)|]. eapply bind_hd; [apply (small2_hd b c _ Db Dc)|]. eapply bind_hd; [apply (beta_hd beta rest Hb Hc)|].
  cbv beta. destruct rest as [|r0 rest]; [now destruct Hr|]. exists []. unfold new_tag. cbn [lenN app]. change (N.succ (N.succ 0) =? 1) with false. cbv iota. now rewrite num1, num2.
Qed.
Lemma win2 n v rest : two n v rest -> (t_beta v = [] -> no_beta rest /\ no_digit rest) -> exists l, win_tag n = v :: l.
Proof.
  intros (p & x & a & b & beta & Hp & Fp & Hx & Fd & Hb & Hr & -> & ->) Hc. cbn [t_beta] in Hc.
  inversion_clear Fd as [|? ? Da F1]. inversion_clear F1 as [|? ? Db _].
  change ([a; b] ++ beta ++ rest) with (a :: b :: beta ++ rest). destruct (win_head p x a (b :: beta ++ rest) Hp Fp Hx Da) as [W1 W2].
  unfold win_tag. rewrite W2. destruct (p ++ x ++ a :: b :: beta ++ rest) as [|h t] eqn:Et; [discriminate W1|]. rewrite W1.
  assert (Hn : no_digit (beta ++ rest)). { destruct Hb as [-> | (d & Hd & ->)]; [now apply Hc|]. intros d' q E. injection E as <- _. unfold digit_c. lia. }
  eapply bind_hd; [apply (x64_hd x a _ Hx Da)|]. eapply bind_hd; [exists []; apply (char_hd a _ Da)|]. eapply bind_hd; [exists []; apply (small1_hd b _ Db Hn)|].
  eapply bind_hd; [apply (beta_hd beta rest Hb); intros E; now apply Hc|].
  cbv beta. destruct rest as [|r0 rest]; [now destruct Hr|]. exists []. unfold new_tag. cbn [lenN app]. change (N.succ 0 =? 1) with true. cbv iota. change (str "0") with [48]. cbn [app]. rewrite num1, num2. do 2 f_equal. lia.
Qed.
Lemma unix_in n v rest : unix n v rest -> In v (nix_tag n).
Proof.
  intros (os & x & a & b & c & dot & beta & z & Hos & Hx & Da & Db & Hc & Hd & Hb & -> & ->). unfold nix_tag.
  apply in_bind. do 2 eexists. split; [apply in_lit; split; reflexivity|]. apply in_bind. exists os, (str "-" ++ x ++ [a; 46; b] ++ c ++ dot ++ beta ++ str ".tar" ++ [z] ++ str "gz" ++ rest). split.
  { rewrite !in_app_iff, !in_lit. destruct Hos as [<-|[<-|[<-|[]]]]; [left|right; left|right; right]; split; reflexivity. }
  apply in_bind. do 2 eexists. split; [apply in_lit; split; reflexivity|]. apply in_bind. exists x, ([a; 46; b] ++ c ++ dot ++ beta ++ str ".tar" ++ [z] ++ str "gz" ++ rest). split.
  { apply in_opt. destruct Hx as [-> | ->]; [right; split; reflexivity|left; apply in_lit; split; reflexivity]. }
  apply in_bind. exists [a]. eexists. split; [apply in_char; exists a; split; [now apply digit_spec|split; reflexivity]|].
  apply in_bind. do 2 eexists. split; [apply in_lit; split; reflexivity|]. apply in_bind. exists (b :: c), (dot ++ beta ++ str ".tar" ++ [z] ++ str "gz" ++ rest). split.
  { apply in_seq. exists [b], (c ++ dot ++ beta ++ str ".tar" ++ [z] ++ str "gz" ++ rest), c. split; [apply in_char; exists b; split; [now apply digit_spec|split; reflexivity]|]. split; [|reflexivity]. apply in_opt.
    destruct Hc as [-> | (d & Dd & ->)]; [right; split; reflexivity|]. left. apply in_seq. exists [46], (d :: dot ++ beta ++ str ".tar" ++ [z] ++ str "gz" ++ rest), [d]. split; [apply in_lit; split; reflexivity|]. split; [|reflexivity]. apply in_char. exists d. split; [now apply digit_spec|split; reflexivity]. }
  apply in_bind. exists dot, (beta ++ str ".tar" ++ [z] ++ str "gz" ++ rest). split. { apply in_opt. destruct Hd as [-> | ->]; [right; split; reflexivity|left; apply in_lit; split; reflexivity]. }
  apply in_bind. exists beta. eexists. split; [apply in_beta; split; [exact Hb|reflexivity]|]. apply in_bind. do 2 eexists. split; [apply in_lit; split; reflexivity|].
  apply in_bind. exists [z]. eexists. split; [apply in_char; exists z; split; [reflexivity|split; reflexivity]|]. apply in_bind. do 2 eexists. split; [apply in_lit; split; reflexivity|]. left. unfold new_tag. rewrite num1. f_equal.
  destruct Hc as [-> | (d & Dd & ->)].
  - cbn [lenN]. change (N.succ 0 =? 1) with true. cbv iota. change (str "0") with [48]. cbn [app]. now rewrite num2.
  - cbn [lenN]. change (N.succ (N.succ (N.succ 0)) =? 1) with false. cbv iota. cbn [filter]. unfold digit_c in *. replace (b =? 46) with false by lia. replace (d =? 46) with false by lia. change (46 =? 46) with true. cbn [negb]. now rewrite num2.
Qed.
Lemma unix_one n v w r s : unix n v r -> unix n w s -> v = w.
Proof.
  intros (os & x & a & b & c & dot & beta & z & Hos & Hx & Da & Db & Hc & Hd & Hb & E1 & ->) (os' & x' & a' & b' & c' & dot' & beta' & z' & Hos' & Hx' & Da' & Db' & Hc' & Hd' & Hb' & E2 & ->).
  rewrite E1 in E2. clear E1. apply app_inv_head in E2. unfold digit_c in *.
  assert (os = os') as <-. { destruct Hos as [<-|[<-|[<-|[]]]], Hos' as [<-|[<-|[<-|[]]]]; try reflexivity; discriminate E2. }
  apply app_inv_head in E2. apply app_inv_head in E2. assert (x = x') as <-.
  { destruct Hx as [-> | ->], Hx' as [-> | ->]; try reflexivity; cbn in E2; injection E2; intros; subst; lia. }
  apply app_inv_head in E2. cbn [app] in E2. injection E2 as <- <- E.
  assert (c = c' /\ beta = beta') as [<- <-]; [|reflexivity].
  destruct Hc as [-> | (d & Dd & ->)], Hc' as [-> | (d' & Dd' & ->)], Hd as [-> | ->], Hd' as [-> | ->], Hb as [-> | (e & De & ->)], Hb' as [-> | (e' & De' & ->)];
    cbn in E; injection E; intros; subst; auto; unfold digit_c in *; try lia; try discriminate; exfalso; congruence.
Qed.
Lemma win_not n v rest : unix n v rest -> win_tag n = [].
Proof.
  intros U. destruct (win_tag n) as [|w l] eqn:E; [reflexivity|exfalso]. destruct (win_only n w) as (s & H); [rewrite E; now left|].
  assert (X : exists p x a b r, Forall letter p /\ (x = [] \/ x = str "-x64-") /\ digit_c a /\ digit_c b /\ n = p ++ x ++ a :: b :: r).
  { destruct H as [(p & x & a & b & c & beta & _ & Fp & Hx & Fd & _ & _ & -> & _)|(p & x & a & b & beta & _ & Fp & Hx & Fd & _ & _ & -> & _)];
      inversion_clear Fd as [|? ? Da F1]; inversion_clear F1 as [|? ? Db _]; exists p, x, a, b; eexists; (split; [exact Fp|split; [exact Hx|split; [exact Da|split; [exact Db|reflexivity]]]]). }
  destruct X as (p & x & a & b & r & Fp & Hx & Da & Db & En).
  destruct U as (os & y & a' & b' & c & dot & beta & z & Hos & Hy & Da' & Db' & _ & _ & _ & En' & _). rewrite En in En'. apply (f_equal skip_alpha) in En'. rewrite skip_app in En' by exact Fp. rewrite (skip_not x (b :: r) Hx a Da) in En'.
  rewrite (app_assoc (str "rar") os) in En'. rewrite skip_app in En'.
  - change (skip_alpha (str "-" ++ ?t)) with (45 :: t) in En'. unfold digit_c in *. destruct Hx as [-> | ->]; cbn [app] in En'; [injection En' as En' _; lia|].
    change (str "-x64-") with (45 :: str "x64-") in En'. injection En' as En'. destruct Hy as [-> | ->]; cbn [app] in En'; [injection En'; intros; subst; lia|]. injection En'; intros; subst; lia.
  - apply Forall_app. split; [|destruct Hos as [<-|[<-|[<-|[]]]]]; apply Forall_forall; intros ch I; apply alpha_spec; repeat (destruct I as [<-|I]; [reflexivity|]); destruct I.
Qed.
Theorem tag_clear n v : clear_name n v -> versiontag n = Some v.
Proof.
  unfold versiontag. intros [(rest & H & C)|[(rest & H & C)|(rest & H)]].
  - destruct (win3 n v rest H C) as [l ->]. reflexivity.
  - destruct (win2 n v rest H C) as [l ->]. reflexivity.
  - rewrite (win_not n v rest H). pose proof (unix_in n v rest H) as I. destruct (nix_tag n) as [|w l] eqn:E; [destruct I|]. f_equal. destruct (nix_only n w) as [s U]; [rewrite E; now left|]. exact (unix_one n w v s rest U H).
Qed.

(** ** Dates and names *)
Lemma dec4 n : dec 4 n = [48 + n / 10 / 10 / 10 mod 10; 48 + n / 10 / 10 mod 10; 48 + n / 10 mod 10; 48 + n mod 10].
Proof. reflexivity. Qed.
Lemma d2_dec n : n < 100 -> d2 n = dec 2 n.
Proof. intros H. unfold d2. now rewrite dec2_99. Qed.
Lemma d4_dec n : n < 10000 -> d4 n = dec 4 n.
Proof.
  intros H. unfold d4, d2. rewrite dec4. cbn [app]. replace (n / 100 / 10) with (n / 10 / 10 / 10 mod 10) by lia. replace (n / 100 mod 10) with (n / 10 / 10 mod 10) by lia.
  replace (n mod 100 / 10) with (n / 10 mod 10) by lia. now replace ((n mod 100) mod 10) with (n mod 10) by lia.
Qed.
Lemma date_day st : st < 2 ^ 32 -> rar_date st = day_text st.
Proof.
  intros H. unfold rar_date, parse_dos_time, day_text. rewrite !N.shiftr_shiftr, !N.shiftr_div_pow2.
  change 0x7F with (N.ones 7). change 0x0F with (N.ones 4). change 0x1F with (N.ones 5). rewrite !N.land_ones.
  change (5 + (6 + (5 + (5 + 4)))) with 25. change (5 + (6 + (5 + 5))) with 21. change (5 + (6 + 5)) with 16. change (2 ^ 7) with 128. change (2 ^ 4) with 16. change (2 ^ 5) with 32.
  change (2 ^ 32) with 4294967296 in H. change (2 ^ 25) with 33554432. change (2 ^ 21) with 2097152. change (2 ^ 16) with 65536.
  assert (Hy : st / 33554432 < 128) by lia. rewrite (N.mod_small _ _ Hy). rewrite d4_dec by lia. rewrite !d2_dec by lia. now replace (st / 33554432 + 1980) with (1980 + st / 33554432) by lia.
Qed.
Lemma tag_bounds n v : versiontag n = Some v -> t_large v < 10 /\ t_small v < 100 /\ beta_text (t_beta v).
Proof.
  intros H. destruct (tag_only n v H) as (r & [(p & x & a & b & c & beta & _ & _ & _ & Fd & Hb & _ & _ & ->)|[(p & x & a & b & beta & _ & _ & _ & Fd & Hb & _ & _ & ->)|(os & x & a & b & c & dot & beta & z & _ & _ & Da & Db & Hc & _ & Hb & _ & ->)]]); cbn [t_large t_small t_beta].
  - inversion_clear Fd as [|? ? Da F1]. inversion_clear F1 as [|? ? Db F2]. inversion_clear F2 as [|? ? Dc _]. unfold digit_c in *. repeat split; try lia. exact Hb.
  - inversion_clear Fd as [|? ? Da F1]. inversion_clear F1 as [|? ? Db F2]. unfold digit_c in *. repeat split; try lia. exact Hb.
  - unfold digit_c in *. repeat split; try lia; [|exact Hb]. destruct Hc as [-> | (d & Dd & ->)]; unfold digit_c in *; lia.
Qed.
Lemma tag_text_dec v : t_large v < 10 -> t_small v < 100 -> tag_text v = dec 1 (t_large v) ++ dec 2 (t_small v) ++ t_beta v.
Proof. intros H1 H2. unfold tag_text. rewrite d2_dec by exact H2. replace (dec 1 (t_large v)) with [48 + t_large v mod 10] by reflexivity. now rewrite (N.mod_small _ _ H1). Qed.
Lemma base_exe date y m d v r : y < 10000 -> m < 100 -> d < 100 -> date = dec 4 y ++ str "-" ++ dec 2 m ++ str "-" ++ dec 2 d -> t_large v < 10 -> t_small v < 100 ->
  exists e, exe_file (base_name date v ++ r) e /\ x_date e = date /\ x_major e = t_large v /\ x_minor e = t_small v.
Proof.
  intros Hy Hm Hd -> H1 H2. eexists. split.
  - exists (48 + y / 10 / 10 / 10 mod 10), (48 + y / 10 / 10 mod 10), (48 + y / 10 mod 10), (48 + y mod 10), (48 + m / 10 mod 10), (48 + m mod 10), (48 + d / 10 mod 10), (48 + d mod 10),
      (48 + t_large v mod 10), (48 + t_small v / 10 mod 10), (48 + t_small v mod 10), (t_beta v ++ r). split; [|split; [|reflexivity]].
    + repeat (apply Forall_cons; [unfold digit_c; lia|]). apply Forall_nil.
    + unfold base_name. rewrite <- !app_assoc. reflexivity.
  - cbn [x_date x_major x_minor]. split; [reflexivity|]. split; lia.
Qed.
Lemma dated_find (files : list (text * N)) : match find (fun x => mem_text (fst x) RAR_NAMES) files with
  | Some (n, st) => exists a b, files = a ++ (n, st) :: b /\ rar_program n /\ Forall (fun x => ~ rar_program (fst x)) a
  | None => Forall (fun x : text * N => ~ rar_program (fst x)) files end.
Proof.
  induction files as [|[n st] files IH]; cbn [find]; [constructor|]. cbn [fst]. destruct (mem_text n RAR_NAMES) eqn:E.
  - apply mem_text_In in E. exists [], files. auto.
  - assert (Hn : ~ rar_program n) by (intros H; apply mem_text_In in H; unfold RAR_NAMES in E; congruence).
    destruct (find _ files) as [[n' st']|]; [|constructor; auto]. destruct IH as (a & b & -> & H1 & H2). exists ((n, st) :: a), b. split; [reflexivity|]. split; [exact H1|]. constructor; auto.
Qed.
Lemma find_dated a n st b : rar_program n -> Forall (fun x => ~ rar_program (fst x)) a -> find (fun x : text * N => mem_text (fst x) RAR_NAMES) (a ++ (n, st) :: b) = Some (n, st).
Proof.
  intros Hn. induction 1 as [|[m s] a Hm Ha IH]; cbn [app find fst].
  - apply mem_text_In in Hn. unfold RAR_NAMES. now rewrite Hn.
  - destruct (mem_text m RAR_NAMES) eqn:E; [|exact IH]. apply mem_text_In in E. contradiction.
Qed.
Lemma dated_day c date : content_ok c -> dated c date -> exists y m d, y < 10000 /\ m < 100 /\ d < 100 /\ date = dec 4 y ++ str "-" ++ dec 2 m ++ str "-" ++ dec 2 d.
Proof.
  intros Hc [(a & n & st & b & -> & _ & _ & ->)| ->]; [|exact Hc]. cbn [content_ok] in Hc. apply Forall_app in Hc as [_ Hc]. inversion_clear Hc as [|? ? Hs _]. cbn [snd] in Hs. unfold day_text.
  exists (1980 + st / 2 ^ 25), (st / 2 ^ 21 mod 16), (st / 2 ^ 16 mod 32). change (2 ^ 32) with 4294967296 in Hs. change (2 ^ 25) with 33554432. split; [lia|]. split; [|split; [|reflexivity]].
  - pose proof (N.mod_lt (st / 2 ^ 21) 16). lia.
  - pose proof (N.mod_lt (st / 2 ^ 16) 32). lia.
Qed.

Lemma sub_spec (a b : text) : inside_b a b = true <-> within a b.
Proof.
  unfold inside_b, within. induction b as [|x b IH]; cbn [find_sub].
  - destruct a as [|y a]; cbn [starts_with]; [split; [exists [], []; reflexivity|reflexivity]|]. split; [discriminate|]. intros ([|] & q & E); discriminate E.
  - destruct (starts_with N.eqb a (x :: b)) eqn:E.
    + split; [intros _|reflexivity]. destruct (lit a (x :: b)) as [q|] eqn:L; [|unfold lit in L; rewrite E in L; discriminate]. apply lit_spec in L. exists [], q. exact L.
    + assert (N : forall q, x :: b <> a ++ q) by (intros q Hq; apply lit_spec in Hq; unfold lit in Hq; rewrite E in Hq; discriminate).
      destruct (find_sub N.eqb a b) as [i|].
      * split; [intros _|reflexivity]. destruct (proj1 IH eq_refl) as (p & q & ->). exists (x :: p), q. reflexivity.
      * split; [discriminate|]. intros ([|y p] & q & H); [now destruct (N q)|]. injection H as -> ->. apply IH. eauto.
Qed.
Lemma ends_spec e t : ends e t = true <-> ended e t.
Proof. unfold ends, ended. apply VolFacts.ends_with_spec. Qed.
Lemma ended_within e t : ended e t -> inside_b e t = true.
Proof. intros [p ->]. apply sub_spec. exists p, []. now rewrite app_nil_r. Qed.
Lemma get_dated f c date : content_ok c -> get_date f c = Ok (Some date) -> dated c date /\ ((exists files, c = CRar files) /\ (ended (str ".exe") f \/ ended (str ".sfx") f) \/ c = CTar date).
Proof.
  unfold get_date. intros Hc H. destruct (ends (str ".exe") f || ends (str ".sfx") f) eqn:E.
  - apply orb_true_iff in E. rewrite !ends_spec in E. destruct c as [files| |]; [|discriminate|discriminate]. apply ok_inj in H. pose proof (dated_find files) as D. destruct (find _ files) as [[n st]|]; [|discriminate]. apply some_inj in H as <-.
    destruct D as (a & b & -> & D1 & D2). split; [|left; eauto]. left. exists a, n, st, b. split; [reflexivity|]. split; [exact D1|]. split; [exact D2|]. apply date_day.
    cbn [content_ok] in Hc. apply Forall_app in Hc as [_ Hc]. now inversion_clear Hc.
  - destruct c; try discriminate. apply ok_inj in H. apply some_inj in H as ->. unfold dated. auto.
Qed.
Lemma name_from l eb f c k : In (f, c) l -> content_ok c -> new_name eb f c = Ok (Some k) -> comes_from l eb k f.
Proof.
  intros I Hc H. unfold new_name in H. destruct (versiontag f) as [v|] eqn:V; [|discriminate]. destruct (_ && _ && _) eqn:X; [discriminate|]. destruct (t_large v <? 2) eqn:L; [discriminate|].
  destruct (negb eb && negb (lenN (t_beta v) =? 0)) eqn:B; [discriminate|]. bindinv H. destruct (tag_bounds f v V) as (B1 & B2 & B3). destruct (tag_only f v V) as [rest T].
  match type of H with (match ?o with _ => _ end) = _ => destruct o as [date|] eqn:Ed; [|discriminate] end. destruct (get_dated f c date Hc) as [D _]; [congruence|].
  destruct (dated_day c date Hc D) as (y & m & d & Hy & Hm & Hd & Edate).
  assert (K : k = base_name date v \/ k = base_name date v ++ str ".exe").
  { unfold base_name. rewrite <- !app_assoc. rewrite (tag_text_dec v B1 B2) in H. rewrite <- !app_assoc in H.
    assert (G : k = date ++ str "_rar" ++ dec 1 (t_large v) ++ dec 2 (t_small v) ++ t_beta v \/ k = date ++ str "_rar" ++ dec 1 (t_large v) ++ dec 2 (t_small v) ++ t_beta v ++ (if inside_b (str ".sfx") f then [] else str ".exe")).
    { destruct c; apply ok_inj in H; apply some_inj in H; auto. }
    destruct G as [G|G]; [now left|]. destruct (inside_b (str ".sfx") f); [left; now rewrite app_nil_r in G|now right]. }
  assert (EX : exists e, exe_file k e /\ x_date e = date /\ x_major e = t_large v /\ x_minor e = t_small v).
  { destruct K as [-> | ->]; [rewrite <- (app_nil_r (base_name date v))|]; exact (base_exe date y m d v _ Hy Hm Hd Edate B1 B2). }
  destruct EX as (e & EX). exists c, v, date, e, rest. split; [exact I|]. split; [exact T|]. split; [lia|]. split.
  { apply andb_false_iff in B. destruct B as [B|B]; [left; now destruct eb|right]. apply negb_false_iff in B. apply N.eqb_eq in B. now apply lenN_0 in B. }
  split; [exact D|]. split; [exact K|exact EX].
Qed.
Lemma wanted_name eb f c k : content_ok c -> wanted eb f c k -> new_name eb f c = Ok (Some k).
Proof.
  intros Hc (v & date & C & L & B & D & W). pose proof (tag_clear f v C) as V. destruct (tag_bounds f v V) as (B1 & B2 & _). unfold new_name. rewrite V.
  assert (X : negb (inside_b (str ".exe") f) && negb (inside_b (str ".tar.gz") f) && negb (inside_b (str ".sfx") f) = false).
  { destruct W as [(_ & W & _)|[(_ & W & _)|(_ & W & _)]]; rewrite (ended_within _ _ W); cbn [negb andb]; rewrite ?andb_false_r; reflexivity. }
  rewrite X. replace (t_large v <? 2) with false by lia.
  assert (Y : negb eb && negb (lenN (t_beta v) =? 0) = false). { destruct B as [-> | ->]; [reflexivity|]. cbn. apply andb_false_r. }
  rewrite Y. rewrite (tag_text_dec v B1 B2). unfold get_date, base_name in *.
  assert (R : forall files, c = CRar files -> match find (fun x : text * N => mem_text (fst x) RAR_NAMES) files with Some (_, stamp) => Some (rar_date stamp) | None => None end = Some date).
  { intros files ->. destruct D as [(a & n & st & b & E & D1 & D2 & ->)|E]; [|discriminate E]. injection E as ->. rewrite (find_dated a n st b D1 D2). f_equal. apply date_day.
    cbn [content_ok] in Hc. apply Forall_app in Hc as [_ Hc]. now inversion_clear Hc. }
  destruct W as [((files & Ec) & W & S & ->)|[((files & Ec) & W & ->)|(Ec & W & ->)]]; rewrite Ec.
  - apply ends_spec in W. rewrite W. cbn [orb bind]. rewrite (R files Ec). destruct (inside_b (str ".sfx") f) eqn:I; [apply sub_spec in I; contradiction|]. now rewrite <- !app_assoc.
  - pose proof (ended_within _ _ W) as I. apply ends_spec in W. rewrite W, orb_true_r. cbn [bind]. rewrite (R files Ec), I. now rewrite app_nil_r.
  - assert (N1 : ends (str ".exe") f = false /\ ends (str ".sfx") f = false).
    { destruct W as [p ->]. split; apply not_true_is_false; intros H; apply ends_spec in H as [q H]; apply (f_equal (@rev N)) in H; rewrite !rev_app_distr in H; vm_compute in H; discriminate H. }
    destruct N1 as [-> ->]. reflexivity.
Qed.
Lemma put_in k v d k' v' : In (k', v') (put_exe k v d) <-> (k' = k /\ v' = v) \/ (k' <> k /\ In (k', v') d).
Proof.
  unfold put_exe. cbn [In]. rewrite filter_In. cbn [fst]. split.
  - intros [H|[H1 H2]]; [left; now injection H as -> ->|right]. split; [|exact H1]. intros ->. now rewrite teqb_refl in H2.
  - intros [[-> ->]|[H1 H2]]; [now left|right]. split; [exact H2|]. apply negb_true_iff. now apply teqb_neq.
Qed.
Lemma put_nodup k v d : NoDup (map fst d) -> NoDup (map fst (put_exe k v d)).
Proof.
  intros H. unfold put_exe. cbn [map fst]. constructor.
  - intros I. apply in_map_iff in I as ([a b] & E & I). cbn in E. subst a. apply filter_In in I as [_ I]. cbn in I. now rewrite teqb_refl in I.
  - clear v. induction d as [|[a b] d IH]; [constructor|]. inversion_clear H as [|? ? H1 H2]. cbn [filter fst]. destruct (teqb a k); cbn [negb map]; [exact (IH H2)|]. constructor; [|exact (IH H2)].
    intros I. apply H1. apply in_map_iff in I as (y & E & I). apply filter_In in I as [I _]. apply in_map_iff. eauto.
Qed.
Lemma all_step eb l0 l : (forall x, In x l -> In x l0) -> Forall (fun x => content_ok (snd x)) l -> forall d d', extract_all eb l d = Ok d' -> NoDup (map fst d) -> (forall k f, In (k, f) d -> comes_from l0 eb k f) ->
  NoDup (map fst d') /\ (forall k f, In (k, f) d' -> comes_from l0 eb k f) /\ (forall k, In k (map fst d) -> In k (map fst d')) /\ (forall f c k, In (f, c) l -> wanted eb f c k -> In k (map fst d')).
Proof.
  induction l as [|[f c] l IH]; intros Hl Hc d d' H Nd Hd; cbn [extract_all] in H.
  - apply ok_inj in H as <-. split; [exact Nd|]. split; [exact Hd|]. split; [auto|]. intros ? ? ? [].
  - inversion_clear Hc as [|? ? Hc1 Hc2]. cbn [snd] in Hc1. destruct (new_name eb f c) as [n|e] eqn:E; [|discriminate]. cbn [bind] in H.
    destruct (IH (fun x I => Hl x (or_intror I)) Hc2 _ _ H) as (A1 & A2 & A3 & A4).
    + destruct n; [apply put_nodup|]; exact Nd.
    + destruct n as [n|]; [|exact Hd]. intros k g I. apply put_in in I as [[-> ->]|[_ I]]; [|exact (Hd k g I)]. apply (name_from l0 eb f c n); [apply Hl; now left|exact Hc1|exact E].
    + split; [exact A1|]. split; [exact A2|]. split.
      * intros k I. apply A3. destruct n as [n|]; [|exact I]. apply in_map_iff in I as ([a b] & Ea & I). cbn in Ea. subst a. destruct (list_eq_dec N.eq_dec k n) as [-> |Hn]; [cbn; now left|]. apply in_map_iff. exists (k, b). split; [reflexivity|]. apply put_in. auto.
      * intros g c' k [I|I] W; [|exact (A4 g c' k I W)]. injection I as <- <-. pose proof (wanted_name eb f c k Hc1 W) as X. rewrite E in X. injection X as ->. apply A3. cbn. now left.
Qed.
Theorem exes_known eb l d : Forall (fun x => content_ok (snd x)) l -> extract_all eb l [] = Ok d -> NoDup (map fst d) /\ forall k f, In (k, f) d -> comes_from l eb k f.
Proof. intros Hc H. destruct (all_step eb l l (fun _ I => I) Hc [] d H (NoDup_nil _) (fun _ _ F => match F with end)) as (A & B & _). auto. Qed.
Theorem exes_kept eb l d f c k : Forall (fun x => content_ok (snd x)) l -> extract_all eb l [] = Ok d -> In (f, c) l -> wanted eb f c k -> exists e, In k (map fst d) /\ exe_file k e.
Proof.
  intros Hc H I W. destruct (all_step eb l l (fun _ I => I) Hc [] d H (NoDup_nil _) (fun _ _ F => match F with end)) as (_ & A & _ & B). pose proof (B f c k I W) as J. apply in_map_iff in J as ([k' f'] & E & J). cbn in E. subst k'.
  destruct (A k f' J) as (c' & v & date & e & rest & _ & _ & _ & _ & _ & _ & X & _). exists e. split; [|exact X]. apply in_map_iff. exists (k, f'). auto.
Qed.
