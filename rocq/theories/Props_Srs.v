(** Numbers and records in SRS files: C29, C30, C31, C32, C33. *)
From Verif Require Import Base Ebml EbmlSpec EbmlFacts SrsRec SrsRecSpec SrsRecFacts.

(** C29: what is written for a length is its shortest EBML form; reading gives the length and the width *)
Theorem C29_make : forall n, n < 2 ^ 49 -> exists w,
  make_ebml_uint n = Ok (vint w n) /\ vint_ok w n /\ forall w', vint_ok w' n -> (w <= w')%nat.
Proof. exact make_thm. Qed.
Print Assumptions C29_make.
Theorem C29_read : forall n b a c, make_ebml_uint n = Ok b ->
  get_ebml_uint (a ++ b ++ c) (lenN a) (lenN b) = Ok n /\
  get_ebml_uint_stream (a ++ b ++ c) (lenN a) = Ok (n, lenN b) /\
  (exists x r, b = x :: r /\ get_uint_length (b2n x) = lenN b).
Proof. exact read_make. Qed.
Print Assumptions C29_read.
(** any EBML number of up to 8 bytes is read, shortest or not *)
Theorem C29_decode : forall w v, vint_ok w v -> forall a b,
  get_ebml_uint (a ++ vint w v ++ b) (lenN a) (N.of_nat w) = Ok v /\
  get_ebml_uint_stream (a ++ vint w v ++ b) (lenN a) = Ok (v, N.of_nat w).
Proof. exact read_vint. Qed.
Print Assumptions C29_decode.
(** the encoder accepts no more than that: 8 byte forms are never written *)
Theorem C29_large : forall n, 2 ^ 49 <= n -> make_ebml_uint n = Err UnboundLocal.
Proof. exact make_large. Qed.
Print Assumptions C29_large.
Example C29_example : make_ebml_uint 300 = Ok [x41; x2c] /\ vint 2 300 = [x41; x2c] /\
  get_ebml_uint_stream [x00; x41; x2c; xff] 1 = Ok (300, 2) /\ make_ebml_uint 127 = Ok [xff] /\ vint_ok 8 (2 ^ 50).
Proof. repeat (split; [vm_compute; reflexivity|]). split; [auto with arith|reflexivity]. Qed.

(** C30: the lengths are the frame sizes, and the bytes in front of the frames are counted *)
Theorem C30_frames : forall t frames h a rest, laced t frames h -> t = 0 \/ t = 2 \/ 2 <= lenN frames ->
  block_frame_lengths t (Z.of_N (lenN h + total frames)) (a ++ h ++ rest) (lenN a) = Ok (map Z.of_N frames, lenN h).
Proof. exact lengths_thm. Qed.
Print Assumptions C30_frames.
(** for these types of lacing the sum is right for any bytes, damaged ones too *)
Theorem C30_sum : forall lace dl st pos fs k, lace = 0 \/ lace = 2 \/ (lace = 6 /\ (2 <= length fs)%nat) ->
  block_frame_lengths lace dl st pos = Ok (fs, k) -> sumZ fs = (dl - Z.of_N k)%Z.
Proof. exact sum_thm. Qed.
Print Assumptions C30_sum.
(** a block with one frame but a lacing type: the size is wrong *)
Theorem C30_one_fixed_refuted : exists frames h rest fs, laced 4 frames h /\
  block_frame_lengths 4 (Z.of_N (lenN h + total frames)) (h ++ rest) 0 = Ok (fs, lenN h) /\ sumZ fs <> Z.of_N (total frames).
Proof. exists [3], [x00], [x01; x02; x03], [4%Z]. split; [apply (laced_fixed 3 1); split; discriminate|]. split; [vm_compute; reflexivity|vm_compute; discriminate]. Qed.
Print Assumptions C30_one_fixed_refuted.
Theorem C30_one_ebml_refuted : exists frames h rest fs k, laced 6 frames h /\
  block_frame_lengths 6 (Z.of_N (lenN h + total frames)) (h ++ rest) 0 = Ok (fs, k) /\ k <> lenN h /\ sumZ fs <> Z.of_N (total frames).
Proof. exists [3], [x00], [x85; x02; x03], [5%Z], 2. split; [exact (laced_ebml_one 3)|]. split; [vm_compute; reflexivity|]. split; vm_compute; discriminate. Qed.
Print Assumptions C30_one_ebml_refuted.
Example C30_example :
  laced 2 [300; 20; 7] [x02; xff; x2d; x14] /\ laced 6 [300; 310; 200; 7] [x03; x41; x2c; xc9; x5f; x91] /\
  block_frame_lengths 6 823 [x03; x41; x2c; xc9; x5f; x91; x00] 0 = Ok ([300; 310; 200; 7]%Z, 6).
Proof.
  split; [exact (laced_xiph [300; 20] 7 eq_refl)|]. split; [|vm_compute; reflexivity].
  refine (laced_ebml 300 2 [310; 200] 7 [xc9; x5f; x91] _ _ eq_refl); [split; [auto with arith|reflexivity]|].
  refine (ec_cons 300 310 1 73 [200] [x5f; x91] eq_refl _ _); [split; [auto with arith|reflexivity]|].
  refine (ec_cons 310 200 2 8081 [] [] eq_refl _ (ec_nil 200)). split; [auto with arith|reflexivity].
Qed.

(** C31 *)
Theorem C31_encode : forall n, n < 2 ^ 28 -> base128 (encode_id3_size n) n.
Proof. exact id3_shape. Qed.
Print Assumptions C31_encode.
Theorem C31_decode : forall l n extra, base128 l n -> decode_id3_size (l ++ extra) = Ok n.
Proof. exact id3_decode. Qed.
Print Assumptions C31_decode.
(** beyond 28 bits the upper bits are lost without an error *)
Theorem C31_large : forall n, exists m, m < 2 ^ 28 /\ encode_id3_size n = encode_id3_size m /\ m = n mod 2 ^ 28.
Proof. exact id3_large. Qed.
Print Assumptions C31_large.
Example C31_example : encode_id3_size 257 = [x00; x00; x02; x01] /\ decode_id3_size [x00; x00; x02; x01; x99] = Ok 257 /\ base128 [x7f; x7f; x7f; x7f] (2 ^ 28 - 1).
Proof. repeat (split; [vm_compute; reflexivity|]). exists 127, 127, 127, 127. repeat (split; [reflexivity|]). reflexivity. Qed.

(** C32: the file record, with anything behind it *)
Theorem C32_round : forall app d b name extra, serialize_file app d = Ok b -> after_slash (fd_sample_name d) name ->
  parse_file_data (b ++ extra) = Ok {| fd_flags := fd_flags d; fd_appname := app; fd_sample_name := name;
                                       fd_size := fd_size d; fd_crc32 := fd_crc32 d mod 2 ^ 32 |}.
Proof. exact file_round. Qed.
Print Assumptions C32_round.
(** what can be written, and the bytes *)
Theorem C32_written : forall app d name a n, utf8_enc app = Some a -> lenN a < 2 ^ 16 -> after_slash (fd_sample_name d) name ->
  utf8_enc name = Some n -> lenN n < 2 ^ 16 -> fd_flags d < 2 ^ 16 -> fd_size d < 2 ^ 64 ->
  serialize_file app d = Ok (file_layout (fd_flags d) a n (fd_size d) (fd_crc32 d mod 2 ^ 32)).
Proof. exact file_accepts. Qed.
Print Assumptions C32_written.
Example C32_example :
  let d := {| fd_flags := 3; fd_appname := []; fd_sample_name := str "Sample/a" ++ [233] ++ str ".mkv"; fd_size := 5000000000; fd_crc32 := 0xDEADBEEF |} in
  after_slash (fd_sample_name d) ([97; 233] ++ str ".mkv") /\
  exists b, serialize_file (str "pyReSample 0.7") d = Ok b /\ lenN b = 39 /\
  parse_file_data b = Ok {| fd_flags := 3; fd_appname := str "pyReSample 0.7"; fd_sample_name := [97; 233] ++ str ".mkv"; fd_size := 5000000000; fd_crc32 := 0xDEADBEEF |}.
Proof.
  split; [split; [intros H; cbn in H; repeat (destruct H as [H|H]; [discriminate|]); exact H|right; exists (str "Sample"); reflexivity]|].
  eexists. split; [vm_compute; reflexivity|]. split; vm_compute; reflexivity.
Qed.

(** C33: the track record *)
Theorem C33_round : forall t b extra, serialize_track t = Ok b -> (has (td_flags t) 8 = true <-> 2 ^ 16 <= td_number t) ->
  parse_track (b ++ extra) = Ok t.
Proof. exact track_round. Qed.
Print Assumptions C33_round.
Theorem C33_written : forall t, td_flags t < 2 ^ 16 -> td_number t < 2 ^ 32 -> td_length t < (if has (td_flags t) 4 then 2 ^ 64 else 2 ^ 32) ->
  td_offset t < 2 ^ 64 -> lenN (td_signature t) < 2 ^ 16 -> exists b, serialize_track t = Ok b /\
  lenN b = 18 + (if has (td_flags t) 4 then 4 else 0) + (if 2 ^ 16 <=? td_number t then 2 else 0) + lenN (td_signature t).
Proof. exact track_accepts. Qed.
Print Assumptions C33_written.
(** a large track number and no flag for it, which is never set: another track is read *)
Theorem C33_large_number_refuted : exists t b t', serialize_track t = Ok b /\ parse_track b = Ok t' /\
  td_number t' <> td_number t /\ td_length t' <> td_length t /\ td_signature t' <> td_signature t.
Proof.
  exists {| td_flags := 0; td_number := 65537; td_length := 7; td_offset := 9; td_signature := [x61; x62] |}.
  eexists. eexists. split; [vm_compute; reflexivity|]. split; [vm_compute; reflexivity|]. repeat split; discriminate.
Qed.
Print Assumptions C33_large_number_refuted.
Example C33_example :
  let t := {| td_flags := 4; td_number := 2; td_length := 5000000000; td_offset := 123456789012; td_signature := [x01; x02; x03] |} in
  (has (td_flags t) 8 = true <-> 2 ^ 16 <= td_number t) /\ exists b, serialize_track t = Ok b /\ lenN b = 25 /\ parse_track b = Ok t.
Proof.
  split; [split; [discriminate|intros H; exfalso; exact (H eq_refl)]|]. eexists. split; [vm_compute; reflexivity|]. split; vm_compute; reflexivity.
Qed.
