(** SortingEx: SRR files for the examples of C75. *)
From Verif Require Import Base BaseFacts RarSpec ReadSpec SrrSpec Samples RetagEx Verify VerifySpec VerifyFacts Sorting SortingSpec.
Definition two_nfos : list sitem := [app_item (str "x"); stored_item (str "a.nfo", bstr "hi"); stored_item (str "b.nfo", []); rar_item (str "a-R.rar")].
Definition upper_image : list sitem := [app_item (str "x"); stored_item (str "P/a.JPG", bstr "img"); stored_item (str "b.jpeg", bstr "img")].
Definition two_images : list sitem := [app_item (str "x"); stored_item (str "Proof/a.jpg", bstr "img"); stored_item (str "b.jpg", bstr "img")].
Definition twice : list sitem := [app_item (str "x"); stored_item (str "a.txt", []); stored_item (str "a.sfv", []); stored_item (str "a.txt", [])].
Lemma two_nfos_ok : srr_ok two_nfos. Proof. srr two_nfos. Qed.
Lemma upper_ok : srr_ok upper_image. Proof. srr upper_image. Qed.
Lemma two_images_ok : srr_ok two_images. Proof. srr two_images. Qed.
Lemma twice_ok : srr_ok twice. Proof. srr twice. Qed.
Lemma is_image n : forall e x, extension n = x -> In e [".jpg"; ".png"; ".bmp"; ".gif"; ".jpeg"]%string -> lower x = str e -> any_image n.
Proof. intros e x E I L. exists e, x. split; [exact I|]. split; [rewrite <- E; apply extension_ok|exact L]. Qed.
Definition repacked : list sitem := [app_item (str "x"); rar_item (str "a-r.rar")].
Lemma repacked_ok : srr_ok repacked. Proof. srr repacked. Qed.
