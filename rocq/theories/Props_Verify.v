(** Props_Verify: checking extracted files against an SRR file (C58). *)
From Verif Require Import Base Path PathSpec CrcSpec RarSpec ReadSpec SrrSpec Srr Info ListSpec Samples Verify VerifySpec VerifyFacts VerifyEx.

(** ** C58 *)
(** The result is 0 when each packed file that has a CRC is at its place below the folder with that CRC, or when it
    is missing there, the search is on and some file with its extension, size and CRC is found; else it is that of
    the last file for which this is not so: 1 for a file with another CRC, 2 for a missing one. *)
Theorem C58_partial : forall disk walk auto folder l lowf upf i, srr_ok l -> info lowf upf (ser_srr l) = Ok i -> parts l <> [] ->
  (auto = true -> walk_ok disk walk) -> (forall n c, recorded l n c -> checkable disk auto folder l n) ->
  exists ns vs, firsts (map (fun p => h_text (fst p)) (parts l)) ns /\ Forall2 (verdict disk walk auto folder l) ns vs /\
    verify disk walk lowf upf (ser_srr l) folder auto = Ok (last (filter (fun v => negb (v =? 0)) vs) 0).
Proof. exact verify_ok. Qed.
Print Assumptions C58_partial.
Example C58_example : exists i, srr_ok (vsrr four) /\ info lower (fun t => t) (ser_srr (vsrr four)) = Ok i /\ parts (vsrr four) <> [] /\
  walk_ok disk4 walk4 /\ (forall n c, recorded (vsrr four) n c -> checkable disk4 true (str "out") (vsrr four) n) /\
  verify disk4 walk4 lower (fun t => t) (ser_srr (vsrr four)) (str "out") true = Ok 1 /\
  map (fun n => verify disk4 walk4 lower (fun t => t) (ser_srr (vsrr (firstn n four))) (str "out") true) [1; 2; 3]%nat = [Ok 0; Ok 2; Ok 2] /\
  verify disk4 walk4 lower (fun t => t) (ser_srr (vsrr (skipn 2 (firstn 3 four)))) (str "out") true = Ok 0.
Proof. exact ex_four. Qed.
(** No packed files: the result is 10. *)
Theorem C58_music : forall disk walk auto folder l lowf upf i, srr_ok l -> info lowf upf (ser_srr l) = Ok i -> parts l = [] ->
  verify disk walk lowf upf (ser_srr l) folder auto = Ok 10.
Proof. exact verify_music. Qed.
Print Assumptions C58_music.
Example C58_music_example : exists i, srr_ok music /\ info lower (fun t => t) (ser_srr music) = Ok i /\ parts music = [].
Proof. exact ex_music. Qed.
(** Success means that all files are there: false, a file of 4 bytes whose CRC is 0 is not looked for. *)
Theorem C58_refuted : exists l n d, srr_ok l /\ recorded l n 0 /\ srr_path n n /\ says (of_name n (parts l)) (lenN d) /\ d <> [] /\ is_crc32 d 0 /\
  forall folder auto, verify (fun _ => None) [] lower (fun t => t) (ser_srr l) folder auto = Ok 0.
Proof. exact missing_zero. Qed.
Print Assumptions C58_refuted.
(** Success means that the files are below the folder: false, a file with an absolute name is looked for at that place. *)
Theorem C58_outside_refuted : exists l n c disk folder, srr_ok l /\ recorded l n c /\ c <> 0 /\ (forall p, disk (folder ++ 47 :: p) = None) /\
  verify disk [] lower (fun t => t) (ser_srr l) folder false = Ok 0.
Proof. exact outside. Qed.
Print Assumptions C58_outside_refuted.
