(** WantedSpec: the SFV files of a release. *)
From Verif Require Import Base DirsSpec SelectSpec.

(** the file [n] in the directory [d] *)
Definition sfv_at (d n sfv : text) : Prop := sfv = d ++ 47 :: n /\ ~ In 47 n /\ dir_path d.
(** the release with the name [rel] in the directory [root] *)
Definition release_at (root rel : text) : Prop := dir_path root /\ ~ In 47 rel /\ exists r, root = r ++ 47 :: rel.
(** directories of what a release has besides *)
Definition extra_dir (k : text) : Prop :=
  In (lower k) (map str ["subs"; "vobsubs"; "vobsub"; "subtitles"; "sub"; "czsubs"; "subpack"; "vobsubs-full"; "vobsubs-light"; "codec"; "codecs"; "cover"; "covers"]%string).
Definition proof_dir (k : text) : Prop := In (lower k) [str "proof"; str "proofs"].
Definition cd_dir (k : text) : Prop := exists c, lower k = str "cd" ++ [c] /\ is_digit c.
(** Subs/CD1 and the like *)
Definition subs_cd (d : text) : Prop := exists a x c nl, lower d = a ++ str "subs" ++ x ++ str "cd" ++ c :: nl /\ lenN x <= 1 /\ is_digit c /\ (nl = [] \/ nl = [10]).
Definition about_subs (n : text) : Prop := within "subs" n \/ within "vobsub" n \/ within "subtitle" n.
(** an SFV file in the directory of the release or of one of its disks *)
Definition main_sfv (root rel sfv : text) : Prop := exists d n, sfv_at d n sfv /\ ~ about_subs n /\
  ((d = root /\ ~ extra_dir rel /\ ~ proof_dir rel /\ ~ subs_cd root) \/ (exists k, cd_dir k /\ d = root ++ 47 :: k /\ ~ exists a, lower root = a ++ str "subs")).
(** what is for the file of a release about subtitles *)
Definition subs_release (rel : text) : Prop := within "subpack" rel \/ within "vobsub" rel \/ within "subtitle" rel \/ within "sub.pack" rel.
Definition music_file (n : text) : Prop := exists b e, In e [".mp3"; ".flac"; ".mp2"]%string /\ n = b ++ str e.
