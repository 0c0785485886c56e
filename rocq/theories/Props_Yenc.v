(** Props_Yenc: yEnc articles decode to the posted bytes (C40).  [int10] and [int16] are Python's int
    with base 10 and 16, any functions will do. *)
From Verif Require Import Base Crc Yenc YencSpec YencFacts.

(** A part of a file.  Lines of the body can be of any length, their first dots are doubled; control
    fields can be in any order; there can be up to nine other lines before and after. *)
Theorem C40_part_partial : forall int10 int16 (pre post : list bytes) bf total (name : bytes) pf ef (ls : list bytes) (d num size from to : bytes) n s f t w (crc : bytes) ignore,
  (length pre < 10)%nat -> (length post < 10)%nat ->
  Forall (fun l => forall r, l <> bstr "=ybegin " ++ r) pre -> Forall (fun l => forall r, l <> bstr "=yend " ++ r) post ->
  begin_ok true total bf name -> In (bstr "part", num) bf -> In (bstr "size", size) bf -> int10 num = Some n -> int10 size = Some s ->
  fields_ok pf -> In (bstr "begin", from) pf -> In (bstr "end", to) pf -> int10 from = Some f -> int10 to = Some t ->
  fields_ok ef -> In (bstr "pcrc32", crc) ef -> int16 crc = Some w ->
  yencoded d (concat ls) ->
  decode int10 int16 (pre ++ [begin_line bf name] ++ [part_line pf] ++ map dotted ls ++ [end_line ef] ++ post) false ignore =
  if (ignore || (w =? Z.of_N (crc32 d))%Z)%bool then inr (mkY d n f t (t - f + 1) s (VB name)) else inl CrcError.
Proof. exact part_article. Qed.
Print Assumptions C40_part_partial.

(** A whole file in one article, where the part number need not be given.  Missing from C40 in both:
    escapes of other characters than the critical ones and names with " part=" or " total=" in them. *)
Theorem C40_whole_partial : forall int10 int16 (pre post : list bytes) bf part total (name : bytes) ef (ls : list bytes) (d num size : bytes) n s w (crc : bytes) ignore,
  (length pre < 10)%nat -> (length post < 10)%nat ->
  Forall (fun l => forall r, l <> bstr "=ybegin " ++ r) pre -> Forall (fun l => forall r, l <> bstr "=yend " ++ r) post ->
  begin_ok part total bf name -> (if part then In (bstr "part", num) bf /\ int10 num = Some n else n = 1%Z) ->
  In (bstr "size", size) bf -> int10 size = Some s ->
  fields_ok ef -> In (bstr "crc32", crc) ef -> int16 crc = Some w ->
  yencoded d (concat ls) ->
  decode int10 int16 (pre ++ [begin_line bf name] ++ map dotted ls ++ [end_line ef] ++ post) false ignore =
  if (ignore || (w =? Z.of_N (crc32 d))%Z)%bool then inr (mkY d n 1 s s s (VB name)) else inl CrcError.
Proof. exact whole_article. Qed.
Print Assumptions C40_whole_partial.

(** A character that need not be escaped, but is: it comes out wrong. *)
Theorem C40_escape_refuted : exists bf name ef (e : bytes) d (r : bytes), begin_ok false false bf name /\ fields_ok ef /\
  (exists es, Forall2 ychar_any d es /\ e = concat es) /\ r <> d /\
  forall int10 int16, int10 (bstr "1") = Some 1%Z ->
  decode int10 int16 [begin_line bf name; e; end_line ef] false true = inr (mkY r 1 1 1 1 1 (VB name)).
Proof. exact escape_wrong. Qed.
Print Assumptions C40_escape_refuted.
(** A name that looks like it has a field in it is cut. *)
Theorem C40_name_refuted : exists bf name ef (e : bytes) d r,
  fields_ok bf /\ map fst bf = [bstr "line"; bstr "size"] /\ trimmed name /\ fields_ok ef /\ yencoded d e /\ r <> name /\
  forall int10 int16, int10 (bstr "1") = Some 1%Z -> int10 (bstr "2") = Some 2%Z ->
  decode int10 int16 [begin_line bf name; e; end_line ef] false true = inr (mkY d 2 1 1 1 1 (VB r)).
Proof. exact name_cut. Qed.
Print Assumptions C40_name_refuted.

(** Three bytes: the first becomes a dot (in front of a line), the second an equals sign (escaped, and
    the escape is cut over two lines), the third a NUL. *)
Example C40_example : exists bf pf ef (d : bytes) (ls : list bytes),
  begin_ok true true bf (bstr "-=a b=-") /\ In (bstr "part", bstr "2") bf /\ In (bstr "size", bstr "9") bf /\
  fields_ok pf /\ In (bstr "begin", bstr "4") pf /\ In (bstr "end", bstr "6") pf /\ fields_ok ef /\ In (bstr "pcrc32", bstr "f0") ef /\
  yencoded d (concat ls) /\ ls = [[x2e; x3d]; [x7d; x3d; x40]] /\ map dotted ls = [[x2e; x2e; x3d]; [x7d; x3d; x40]] /\ d = [x04; x13; xd6] /\
  forall int10 int16, int10 (bstr "2") = Some 2%Z -> int10 (bstr "9") = Some 9%Z -> int10 (bstr "4") = Some 4%Z -> int10 (bstr "6") = Some 6%Z ->
  decode int10 int16 ([] ++ [begin_line bf (bstr "-=a b=-")] ++ [part_line pf] ++ map dotted ls ++ [end_line ef] ++ []) false true =
   inr (mkY d 2 4 6 3 9 (VB (bstr "-=a b=-"))).
Proof. exact article_example. Qed.
