(** Samples: concrete well formed files used by the examples beside the theorems. *)
From Verif Require Import Base Rar RarSpec ReadSpec SrrSpec.

(** decides the well formedness conditions of concrete files *)
Ltac ok1 :=
  match goal with
  | |- _ /\ _ => split
  | |- True => exact I
  | |- Forall _ ?l => let l' := eval hnf in l in change l with l'; constructor
  | |- ~ In _ _ => let H := fresh in intros H; cbn [In] in H;
                   repeat (destruct H as [H|H]; [discriminate|]); exact H
  | |- _ < _ => vm_compute; reflexivity
  | |- _ <= _ => vm_compute; discriminate
  | |- volume_ok _ => unfold volume_ok
  | |- item_ok _ => unfold item_ok; cbn [fst snd]
  | |- head_ok ?h => let h' := eval hnf in h in change h with h'; unfold head_ok
  | |- sitem_ok ?h => let h' := eval hnf in h in change h with h'; unfold sitem_ok
  | |- hdr_ok _ _ _ _ => unfold hdr_ok
  | |- fhead_ok _ _ => unfold fhead_ok
  | |- name_ok _ => unfold name_ok
  | |- valid_text _ => vm_compute; discriminate
  | |- name_spec _ _ _ => vm_compute; reflexivity
  | |- ext_spec _ => vm_compute
  | |- (if ?c then _ else _) => let v := eval vm_compute in c in change c with v; cbv iota
  | |- exists b', ?body = _ ++ b' /\ _ => exists (dropN 4 body)
  | |- _ \/ _ => first [left; vm_compute; reflexivity | right; vm_compute; discriminate]
  | |- _ <> _ => vm_compute; discriminate
  | |- _ = _ -> _ => let H := fresh in intros H; try (vm_compute in H; discriminate)
  | |- _ = _ => vm_compute; reflexivity
  end.
Ltac ok := repeat ok1.

Definition AHEAD : rhead := HBlock 0x1234 0x73 1 (repN 6 x00) [].
Definition FHEAD (fl : N) (name : string) (size : N) (crc : N) : fhead :=
  mkFhead 0x4321 (0x8000 + fl) size 2 crc 0x3A21B4C7 20 0x30 0x20 (bstr name) (str name) [] [] [].
Definition ENDHEAD : rhead := HBlock 0x3DC4 0x7B 0x4000 [] [].
Definition RRHEAD (rs ds : N) : rhead :=
  HRecov (mkFhead 0x5555 0x8000 (2 * ds + 512 * rs) 2 0 0 29 0x30 0 (bstr "RR") (str "RR") [] [] [])
         (bstr "Protect+") rs ds (2 * ds + 512 * rs).

Definition vol1 : volume := mkVolume
  [(AHEAD, []); (HFile (FHEAD 2 "a.txt" 5 0x11) 3, bstr "abc"); (ENDHEAD, [])] (bstr "trailing").
Definition vol2 : volume := mkVolume
  [(AHEAD, []); (HFile (FHEAD 1 "a.txt" 5 0x22) 2, bstr "de");
   (HFile (FHEAD 0 "b.txt" 0 0) 0, []);
   (HSub (mkFhead 1 0x8000 2 2 0 0 29 0x30 0 (bstr "CMT") (str "CMT") [] [] []) (bstr "hi"), []);
   (ENDHEAD, [])] [].

Lemma vol1_ok : volume_ok vol1.
Proof.
  unfold volume_ok. cbn [v_items v_pad vol1]. split; [ok|split; [|ok]].
  exists [(AHEAD, []); (HFile (FHEAD 2 "a.txt" 5 0x11) 3, bstr "abc")], (ENDHEAD, []).
  split; [reflexivity|]. split; [ok|]. now right.
Qed.
Lemma vol2_ok : volume_ok vol2.
Proof.
  unfold volume_ok. cbn [v_items v_pad vol2]. split; [ok|split; [|ok]].
  exists (firstn 4 (v_items vol2)), (ENDHEAD, []). cbn [firstn v_items vol2].
  split; [reflexivity|]. split; [ok|]. now left.
Qed.

Definition srr1 : list sitem :=
  app_item (str "ReScene .NET 1.2") :: stored_item (str "a.nfo", bstr "info text") ::
  stored_item (str "CD1/a.sfv", bstr "a.rar 12345678") ::
  vol_items (str "CD1/a.rar") vol1 ++ vol_items (str "CD1/a.r00") vol2 ++
  [oso_item 5 0x1122334455667788 (str "a.txt")].
Lemma srr1_ok : srr_ok srr1.
Proof.
  split; [|split; [|split]].
  - unfold srr1, app_item. eauto 8.
  - ok.
  - vm_compute. repeat split; intros; discriminate.
  - ok.
Qed.

(** another one, with a recovery record and without application name *)
Definition srr2 : list sitem :=
  [app_item []; rar_item (str "x.rar"); SHead MARKER; SHead AHEAD; SHead (RRHEAD 1 2); SHead ENDHEAD].
Lemma srr2_ok : srr_ok srr2.
Proof.
  split; [|split; [|split]].
  - unfold srr2, app_item. eauto 8.
  - ok.
  - vm_compute. repeat split; intros; discriminate.
  - ok.
Qed.
