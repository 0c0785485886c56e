(** FpcalcEx: examples of fingerprinting. *)
From Verif Require Import Base BaseFacts Fpcalc FpcalcSpec FpcalcFacts.

(** a file of [n] zeros, the sync bytes, [m] zeros and the string *)
Definition x_file (n m : N) : bytes := repN n x00 ++ [xff; xfb] ++ repN m x00 ++ bstr "LAME" ++ [x07].
Definition x_calc (d : bytes) : list bytes :=
  if starts_with Byte.eqb [xff] d then [bstr "DURATION=12"; bstr "FINGERPRINT=AQAA"; bstr ""] else [bstr "ERROR: couldn't find stream information in the file"].
(** without any tags *)
Definition x_music (d : bytes) : result bytes := Ok d.

Lemma ex_string : string_index (x_file 3 5) = Ok 10 /\ string_index (bstr "LAM") = Err ValueError.
Proof. split; vm_compute; reflexivity. Qed.
Lemma ex_first i n m : string_index (x_file n m) = Ok i -> first_at (x_file n m) i.
Proof. apply string_thm. Qed.
Lemma ex_strip : stripped (x_file 10 254) = Ok (dropN 10 (x_file 10 254)) /\ string_index (x_file 10 254) = Ok 266.
Proof. split; vm_compute; reflexivity. Qed.
Lemma ex_strip_at : first_at (x_file 10 254) 266 /\ last_ff (x_file 10 254) 10 265 10.
Proof.
  split; [apply ex_first; vm_compute; reflexivity|]. split; [lia|]. split; [vm_compute; reflexivity|]. intros q Hq X. apply one_at in X.
  assert (K : forallb (fun i => negb (Byte.eqb (nth i (x_file 10 254) x00) xff)) (seq 11 254) = true) by (vm_compute; reflexivity).
  rewrite forallb_forall in K. assert (J : In (N.to_nat q) (seq 11 254)) by (apply in_seq; lia). specialize (K _ J). apply nth_error_nth with (d := x00) in X. rewrite X in K. discriminate K.
Qed.
Lemma ex_parse : parse [bstr "DURATION=12"; bstr "FINGERPRINT=AQAA"; bstr ""] = Some (bstr "12", bstr "AQAA") /\ parse [bstr "DURATION=12"] = None.
Proof. split; vm_compute; reflexivity. Qed.
Lemma ex_print : fingerprint x_calc x_music 3 false (x_file 10 254) 0 = (Ok (bstr "12", bstr "AQAA"), 0).
Proof. vm_compute. reflexivity. Qed.
(** the sync is 56 bytes into the 256 bytes: the data starts 56 bytes before those 256 *)
Lemma ex_sign : let d := x_file 300 198 in sync_at d 300 /\ first_at d 500 /\ (stripped d = Ok (dropN 188 d) /\ fst (fingerprint x_calc x_music 3 true d 0) = Err ValueError).
Proof. cbv zeta. split; [exists xfb; vm_compute; split; [reflexivity|discriminate]|]. split; [apply ex_first; vm_compute; reflexivity|]. split; vm_compute; reflexivity. Qed.
(** a byte 0xFF that does not start a frame *)
Definition x_noise : bytes := repN 300 x00 ++ [xff; xfb] ++ repN 10 x00 ++ [xff; x00] ++ repN 242 x00 ++ bstr "Xing".
Lemma ex_noise : stripped x_noise = Ok (dropN 288 x_noise) /\ string_index x_noise = Ok 556 /\ sync_at x_noise 300 /\ sub 312 2 x_noise = [xff; x00].
Proof. split; [vm_compute; reflexivity|]. split; [vm_compute; reflexivity|]. split; [exists xfb; vm_compute; split; [reflexivity|discriminate]|vm_compute; reflexivity]. Qed.
Lemma ex_short : let d := x_file 1 34 in sync_at d 1 /\ first_at d 37 /\ stripped d = Err OSError.
Proof. cbv zeta. split; [exists xfb; vm_compute; split; [reflexivity|discriminate]|]. split; [apply ex_first; vm_compute; reflexivity|vm_compute; reflexivity]. Qed.
Lemma ex_left : fingerprint x_calc x_music 3 false [x00] 0 = (Err ValueError, 1).
Proof. vm_compute. reflexivity. Qed.
