(** Fix: bin/pyrescene.py, storing the RAR file of a release that is a fix.  Ignoring the case is that of ASCII. *)
From Verif Require Import Base Path Sfv Dirs Store Capital WorkDir.

(** re.match needs no match of the whole text *)
Definition rest : re := Many (One (fun _ => true)).
Definition fix_words : re :=
  Or (word "sfv") (Or (word "ppf") (Or (word "sync") (Or (Then (word "proo") (maybe (word "f"))) (Or (word "dir") (Or (word "nfo") (Or (word "interleaving") (word "trackorder"))))))).
(** pyrescene.py:653-663 is_storable_fix *)
Definition is_storable_fix (n : text) : bool :=
  icase (Then (Many dot) (Then fix_words (Then (maybe dot) (Then (Or (word "fix") (word "patch")) rest)))) n ||
  matches (Then (Many dot) (Then (word ".") (Then (Or (word "FiX") (word "FIX")) (Then (Or (word ".") (word "-")) rest)))) n ||
  matches (Then (Many dot) (Then (word ".DVDR") (Then dot (Then (word "Fix-") rest)))) n ||
  matches (Then (Many dot) (Then (word ".DVDR") (Then dot (Then (word "REPACK") (Then dot (Then (word "Fix-") rest)))))) n.
(** pyrescene.py:96-126 *)
Definition rar_file_blacklist : list text := map str
  ["BEYOND.THE.FUTURE.FIX.THE.TIME.ARROWS.EBOOT.PATCH.100.JPN.PS3-N0DRM"; "The.Raven.Legacy.of.a.Master.Thief.FIX-RELOADED";
   "CHAMPIONSHIP.MANAGER.2003.2004.UPDATE.V4.1.3.PATCH.FIX.CRACKED-DEViANCE"; "CHAMPIONSHIP.MANAGER.2003.2004.UPDATE.V4.1.4.TIMER.FIX.CRACKED-DEViANCE";
   "CHROME.CRACK.FIX-DEViANCE"; "F1.Racing.Championship.FIX.READ.NFO-HOTDOX"; "Hunting_Unlimited_3_V1.1_NOCD_CRACK_NFOFIX-RVL"; "LMA.Manager.2007.FiX-RELOADED";
   "MSC.PATRAN.V2001.R2A.FIX.FOR.RISE-TFL"; "RUNAWAY.A.ROAD.ADVENTURE.FIX-DEViANCE"; "Company.of.Heroes.Tales.of.Valor.FIX.GERMAN-0x0007"; "Dishonored.GERMAN.FIX-0x0007";
   "OPERATION.FLASHPOINT.RESISTANCE.ADDON.FIX-DEViANCE"; "Deus.Ex.Mankind.Divided.A.Criminal.Past.DLC.FIX-SKIDROW"; "Bubble.Boy.DVDRip.DiVX.FIX-FIXRUS"; "Herbie.Fully.Loaded.SUB.FIX-DiAMOND";
   "Super.Streetfighter.IV.SSFIV.Arcade.Edition.DLC.FIX.READNFO.XBOX360-MoNGoLS"; "Arrested.Development.S02E07.FiX.DVDRip.XviD-SAPHiRE"; "Friends.Trivia.Game.GERMAN.LAME.SITE.SCRIPTS.FIX-SiLENTGATE";
   "Warhammer.40000.Dawn.Of.War.Winter.Assault.GERMAN.CD2.LAME.SITE.SCRIPTS.FIX-SiLENTGATE"; "Broken.Oath.1977.DVDRiP.XviD.DiRFiX-GREiD"; "Abraham.Lincoln.Vs.Zombies.3D.2012.1080p.BluRay.RAR.FiX.x264-LiViDiTY";
   "Game.Of.Thrones.S3.D4.RAR.FIX.MULTiSUBS.COMPLETE.BLURAY-CLASSiC"; "OPUS.Rocket.of.Whispers.RAR.FIX-TiNYiSO"]%string.

Section Os.
Variables (lowf : text -> text) (cwd : text) (listdir : text -> option (list text)).
(** the names in an SFV file, parse_sfv_file(...)[0] *)
Variable entries : text -> result (list text).
(** pyrescene.py:1114-1128: the files on disk and copied_files then *)
Definition store_fix (working_dir reldir : text) (d : files) (main_sfvs main_rars copied_files : list text) : result (files * list text) :=
  if is_storable_fix (basename reldir) then
    match main_sfvs, main_rars with
    | [sfv], [rar] =>
      do l <- entries sfv;
      if (lenN l =? 1) && negb (mem_text (basename reldir) rar_file_blacklist) then
        do dest <- work_dir_file cwd rar reldir working_dir;
        if mem_text dest copied_files then Ok (d, copied_files)
        else
          do x <- copy_to_working_dir lowf cwd listdir working_dir reldir d rar;
          Ok (fst x, copied_files ++ [snd x])
      else Ok (d, copied_files)
    | _, _ => Ok (d, copied_files)
    end
  else Ok (d, copied_files).
End Os.
