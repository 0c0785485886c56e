(** C68: the size of an image. *)
From Verif Require Import Base BaseFacts Image ImageSpec ImageFacts.
Local Open Scope Z_scope.

(** The size of a JPEG file is that in its frame, whatever blocks come before. *)
Theorem C68_jpeg : forall raw bs fill t size precision height width rest,
  Forall block_ok bs -> frame (b2n t) -> lenN size = 2%N -> (height < 0x10000)%N -> (width < 0x10000)%N ->
  (24 <= lenN (jpeg bs fill t size precision height width rest))%N -> known_first bs ->
  get_image_size raw (jpeg bs fill t size precision height width rest) = Some (Z.of_N width, Z.of_N height).
Proof. exact size_of_jpeg. Qed.
Print Assumptions C68_jpeg.

(** A file with a block of Adobe, padding and a table of type C4, which is not a frame. *)
Example C68_jpeg_ex : exists bs, Forall block_ok bs /\ known_first bs /\ frame (b2n xc2) /\ length bs = 2%nat /\
  (24 <= lenN (jpeg bs 1 xc2 [x00; x11] x08 1200 630 []))%N /\
  get_image_size false (jpeg bs 1 xc2 [x00; x11] x08 1200 630 []) = Some (630, 1200) /\ fixed_resolution_cover false (jpeg bs 1 xc2 [x00; x11] x08 1200 630 []) = true.
Proof.
  exists [mkBlock 1 xee (bstr "Adobe"); mkBlock 2 xc4 [xff; xc0]].
  split; [|split; [|split; [|split; [|split; [|split]]]]]; try (vm_compute; reflexivity); try (vm_compute; discriminate).
  - repeat apply Forall_cons; [split; [|split; [|split]]|split; [|split; [|split]]|apply Forall_nil]; try (vm_compute; congruence); intros [[? ?] (? & ? & ?)]; vm_compute in *; congruence.
  - exists (mkBlock 1 xee (bstr "Adobe")), [mkBlock 2 xc4 [xff; xc0]], []. split; [reflexivity|]. split; [reflexivity|]. right. right. split; reflexivity.
  - vm_compute. repeat split; discriminate.
Qed.

(** A file that begins with a table is read where Python knows such files ... *)
Theorem C68_table_partial : forall bs fill t size precision height width rest b bs',
  Forall block_ok bs -> frame (b2n t) -> lenN size = 2%N -> (height < 0x10000)%N -> (width < 0x10000)%N ->
  (24 <= lenN (jpeg bs fill t size precision height width rest))%N -> bs = b :: bs' -> b_fill b = 1%N -> b_type b = xdb ->
  get_image_size true (jpeg bs fill t size precision height width rest) = Some (Z.of_N width, Z.of_N height).
Proof. exact size_of_table. Qed.
Print Assumptions C68_table_partial.
Example C68_table_partial_ex : block_ok (mkBlock 1 xdb (repN 10 x01)) /\
  get_image_size true (jpeg [mkBlock 1 xdb (repN 10 x01)] 1 xc0 [x00; x11] x08 1200 630 []) = Some (630, 1200).
Proof.
  split; [split; [|split; [|split]]|vm_compute; reflexivity]; try (vm_compute; congruence). intros [[? ?] (? & ? & ?)]. vm_compute in *. congruence.
Qed.

(** ... but not elsewhere: the test for them that is added compares bytes with text. *)
Theorem C68_table_refuted : exists bs fill t size precision height width rest b bs',
  Forall block_ok bs /\ frame (b2n t) /\ lenN size = 2%N /\ (height < 0x10000)%N /\ (width < 0x10000)%N /\
  (24 <= lenN (jpeg bs fill t size precision height width rest))%N /\ bs = b :: bs' /\ b_fill b = 1%N /\ b_type b = xdb /\
  get_image_size false (jpeg bs fill t size precision height width rest) = None.
Proof.
  exists [mkBlock 1 xdb (repN 10 x01)], 1%N, xc0, [x00; x11], x08, 1200%N, 630%N, [], (mkBlock 1 xdb (repN 10 x01)), [].
  split; [|repeat split; try (vm_compute; congruence)]. apply Forall_cons; [split; [|split; [|split]]|apply Forall_nil]; try (vm_compute; congruence).
  intros [[? ?] (? & ? & ?)]. vm_compute in *. congruence.
Qed.
Print Assumptions C68_table_refuted.

(** The size of a PNG file. *)
Theorem C68_png : forall raw chunk width height rest, lenN chunk = 8%N -> (width < 0x80000000)%N -> (height < 0x80000000)%N ->
  get_image_size raw (png chunk width height rest) = Some (Z.of_N width, Z.of_N height).
Proof. exact size_of_png. Qed.
Print Assumptions C68_png.
Example C68_png_ex : lenN ([x00; x00; x00; x0d] ++ bstr "IHDR") = 8%N /\
  get_image_size false (png ([x00; x00; x00; x0d] ++ bstr "IHDR") 70000 300 [x08]) = Some (70000, 300).
Proof. vm_compute. split; reflexivity. Qed.

(** The size of a GIF file, but for two sizes. *)
Theorem C68_gif_partial : forall raw version width height rest,
  In version [bstr "87a"; bstr "89a"] -> (width < 0x10000)%N -> (height < 0x10000)%N -> (14 <= lenN rest)%N ->
  ~ (width = 17994 /\ height = 17993)%N -> ~ (width = 30789 /\ height = 26217)%N ->
  get_image_size raw (gif version width height rest) = Some (Z.of_N width, Z.of_N height).
Proof. exact size_of_gif. Qed.
Print Assumptions C68_gif_partial.
Example C68_gif_partial_ex : get_image_size false (gif (bstr "89a") 17994 300 (repN 14 x00)) = Some (17994, 300).
Proof. vm_compute. reflexivity. Qed.

(** A GIF file whose size is written with the letters JFIF is taken for a JPEG file. *)
Theorem C68_gif_refuted : exists version width height rest,
  In version [bstr "87a"; bstr "89a"] /\ (width < 0x10000)%N /\ (height < 0x10000)%N /\ (14 <= lenN rest)%N /\
  forall raw, get_image_size raw (gif version width height rest) = None.
Proof.
  exists (bstr "89a"), 17994%N, 17993%N, (repN 14 x00). split; [right; left; reflexivity|]. repeat split; try (vm_compute; congruence).
Qed.
Print Assumptions C68_gif_refuted.

(** Whatever the file is, the search for the frame comes to an end. *)
Theorem C68_ends : forall f, jpeg_size f <> Err OutOfFuel.
Proof. exact jpeg_ends. Qed.
Print Assumptions C68_ends.
(** A size of zero goes back, and yet the search goes on. *)
Example C68_ends_ex : jpeg_size ([xff; xd8; xff; xe0] ++ repN 20 x00) = Err StructError /\ jpeg_size ([xff; xd8; xff; xe0; x00; x00; x02; xff; xc0; x00; x00; x08; x00; x02; x00; x03]) = Ok (3, 2).
Proof. vm_compute. split; reflexivity. Qed.

(** Only pictures of 630 by 1200 are the posters of a site. *)
Theorem C68_cover : forall raw bs fill t size precision height width rest,
  Forall block_ok bs -> frame (b2n t) -> lenN size = 2%N -> (height < 0x10000)%N -> (width < 0x10000)%N ->
  (24 <= lenN (jpeg bs fill t size precision height width rest))%N -> known_first bs ->
  (fixed_resolution_cover raw (jpeg bs fill t size precision height width rest) = true <-> width = 630%N /\ height = 1200%N).
Proof. exact cover_jpeg. Qed.
Print Assumptions C68_cover.
Example C68_cover_ex : fixed_resolution_cover false (gif (bstr "89a") 630 1200 (repN 14 x00)) = true /\ fixed_resolution_cover false (gif (bstr "89a") 1200 630 (repN 14 x00)) = false.
Proof. vm_compute. split; reflexivity. Qed.
