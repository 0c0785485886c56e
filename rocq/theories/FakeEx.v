(** FakeEx: samples for reconstructing with missing files. *)
From Coq Require Import ZArith.
From Verif Require Import Base BaseFacts Path PathSpec PathFacts Crc Rar RarSpec ReadSpec SrrSpec RecovSpec FsSpec SetSpec Srr
  FsFacts ReadFacts ReadAllFacts SrrFacts EditFacts RebuildFacts CreateFacts Samples RebuildThms Fake FakeSpec FakeSim FakeFacts.

Definition fparm : rparams := mkParams (str "/in") (str "/out") true false true true [].
Definition fdisk : fs := [(str "/in/b.txt", []); (str "/out/other", bstr "x")].
Definition fsrr : list sitem := app_item (str "x") :: vol_items (str "CD1/a.rar") volr ++ vol_items (str "CD1/a.r00") vol2.
Definition before_rr0 : bytes :=
  ser_head MARKER ++ ser_item (AHEAD, []) ++ ser_item (HFile (FHEAD 2 "a.txt" 5 0x11) 3, repN 3 x00).
Definition volr0 : volume := mkVolume
  [(AHEAD, []); (HFile (FHEAD 2 "a.txt" 5 0x11) 3, repN 3 x00); (RRHEAD 1 2, rr_data 1 2 before_rr0); (ENDHEAD, [])]
  (bstr "trailing").
Lemma fsrr_ok : srr_ok fsrr.
Proof.
  split; [|split; [|split]].
  - unfold fsrr, app_item. eauto 8.
  - ok.
  - vm_compute. repeat split; intros; discriminate.
  - ok.
Qed.
Lemma fsrr_holds : holds_volumes fsrr rset.
Proof.
  unfold fsrr, rset. apply hv_skip; [reflexivity|]. apply hv_vol. rewrite <- (app_nil_r (vol_items (str "CD1/a.r00") vol2)). apply hv_vol. constructor.
Qed.
Lemma fake_ex :
  (forall q, fs_get fdisk q = fs_get rdisk q \/ fs_get fdisk q = None) /\ srr_ok fsrr /\ holds_volumes fsrr rset /\ p_part fparm = [] /\ p_empty fparm = true /\
  Forall (fun nv => store_volume (snd nv)) rset /\
  Forall2 (fun nv o => target (p_paths fparm) (normpath (p_out fparm)) (fst nv) o) rset [str "/out/CD1/a.rar"; str "/out/CD1/a.r00"] /\
  Forall (fun o => fs_get rdisk o = None) [str "/out/CD1/a.rar"; str "/out/CD1/a.r00"] /\ stored_names fsrr = [] /\
  supplied (fun p => fs_get rdisk (in_folder (p_in fparm) p)) None (concat (map (fun nv => pieces (snd nv)) rset)) /\
  (forall h d p c, In (h, d) (concat (map (fun nv => pieces (snd nv)) rset)) -> is_dir h = false -> rar_path (h_text h) p ->
     fs_get fdisk (in_folder (p_in fparm) p) = None -> fs_get rdisk (in_folder (p_in fparm) p) = Some c -> lenN c = h_unpacked h) /\
  (exists s, reconstruct fparm (ser_srr fsrr) fdisk = (s, Continue) /\ fs_get (s_fs s) (str "/out/CD1/a.rar") = Some (ser_volume volr0)).
Proof.
  destruct rset_example as (_ & _ & T & S). split; [|split; [exact fsrr_ok|split; [exact fsrr_holds|split; [reflexivity|split; [reflexivity|split; [exact rset_store|split; [exact T|split; [|split; [reflexivity|split; [exact S|split]]]]]]]]]].
  - intros q. unfold fdisk, rdisk. cbn [fs_get]. destruct (teqb (str "/in/b.txt") q) eqn:B; [apply teqb_eq in B; subst q; left; reflexivity|].
    destruct (teqb (str "/out/other") q) eqn:C; [apply teqb_eq in C; subst q; left; reflexivity|]. now right.
  - constructor; [reflexivity|]. constructor; [reflexivity|constructor].
  - intros h d p c I D R _ G. change (concat (map (fun nv => pieces (snd nv)) rset)) with
      [(FHEAD 2 "a.txt" 5 0x11, bstr "abc"); (FHEAD 1 "a.txt" 5 0x22, bstr "de"); (FHEAD 0 "b.txt" 0 0, @nil byte)] in I. apply rar_os_file_name_spec in R.
    destruct I as [I|[I|[I|[]]]]; apply pair_equal_spec in I as [<- _]; vm_compute in R; apply ok_inj in R; subst p; vm_compute in G; apply some_inj in G; subst c; reflexivity.
  - eexists. split; vm_compute; reflexivity.
Qed.
Lemma fake_ops : fake_run [ORead 2; OSeek (-1) SeekEnd; ORead 9; OSeek 0 SeekEnd; OSeek 1 SeekSet; ORead (-1); ORead 4]%Z (fake_open 5) =
  [RData (repN 2 x00); RPos 4; RData (repN 1 x00); RFail; RPos 1; RData (repN 4 x00); RData []].
Proof. reflexivity. Qed.
