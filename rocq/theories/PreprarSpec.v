(** PreprarSpec: installers of RAR and the names their executables get. *)
From Verif Require Import VolName VolSpec.
From Verif Require Import Base Rarexe RarexeSpec Preprar.

Definition letter (c : N) : Prop := 65 <= c <= 90 \/ 97 <= c <= 122.
Definition beta_text (b : text) : Prop := b = [] \/ exists d, digit_c d /\ b = [98; d].
(** wrar393.exe, winrar-x64-393b1.exe, rarln271.sfx: [rest] is what follows the version *)
Definition three (n : text) (v : tag) (rest : text) : Prop :=
  exists p x a b c beta, p <> [] /\ Forall letter p /\ (x = [] \/ x = str "-x64-") /\ Forall digit_c [a; b; c] /\ beta_text beta /\ rest <> [] /\
  n = p ++ x ++ [a; b; c] ++ beta ++ rest /\ v = mkTag (a - 48) ((b - 48) * 10 + (c - 48)) beta.
(** wrar39.exe is version 3.90 *)
Definition two (n : text) (v : tag) (rest : text) : Prop :=
  exists p x a b beta, p <> [] /\ Forall letter p /\ (x = [] \/ x = str "-x64-") /\ Forall digit_c [a; b] /\ beta_text beta /\ rest <> [] /\
  n = p ++ x ++ [a; b] ++ beta ++ rest /\ v = mkTag (a - 48) ((b - 48) * 10) beta.
(** rarlinux-x64-5.4.0.tar.gz, rarosx-3.9.b1.tar.gz *)
Definition unix (n : text) (v : tag) (rest : text) : Prop :=
  exists os x a b c dot beta z, In os [str "osx"; str "linux"; str "bsd"] /\ (x = [] \/ x = str "x64-") /\ digit_c a /\ digit_c b /\
  (c = [] \/ exists d, digit_c d /\ c = [46; d]) /\ (dot = [] \/ dot = [46]) /\ beta_text beta /\
  n = str "rar" ++ os ++ str "-" ++ x ++ [a; 46; b] ++ c ++ dot ++ beta ++ str ".tar" ++ [z] ++ str "gz" ++ rest /\
  v = mkTag (a - 48) ((b - 48) * 10 + (match c with [_; d] => d - 48 | _ => 0 end)) beta.
Definition no_beta (r : text) : Prop := forall d q, r = [98; d] ++ q -> ~ digit_c d.
Definition no_digit (r : text) : Prop := forall d q, r = d :: q -> ~ digit_c d.
(** names that can be read in one way only *)
Definition clear_name (n : text) (v : tag) : Prop :=
  (exists rest, three n v rest /\ (t_beta v = [] -> no_beta rest)) \/
  (exists rest, two n v rest /\ (t_beta v = [] -> no_beta rest /\ no_digit rest)) \/
  (exists rest, unix n v rest).

(** the day in a DOS time stamp *)
Definition day_text (st : N) : text := dec 4 (1980 + st / 2 ^ 25) ++ str "-" ++ dec 2 (st / 2 ^ 21 mod 16) ++ str "-" ++ dec 2 (st / 2 ^ 16 mod 32).
Definition rar_program (n : text) : Prop := In n [str "Rar.exe"; str "Rar.Exe"; str "rar\rar"; str "rar"].
(** the first program in the archive tells the date *)
Definition dated (c : content) (date : text) : Prop :=
  (exists a n st b, c = CRar (a ++ (n, st) :: b) /\ rar_program n /\ Forall (fun x => ~ rar_program (fst x)) a /\ date = day_text st) \/ c = CTar date.
Definition content_ok (c : content) : Prop :=
  match c with
  | CRar files => Forall (fun x => snd x < 2 ^ 32) files
  | CTar date => exists y m d, y < 10000 /\ m < 100 /\ d < 100 /\ date = dec 4 y ++ str "-" ++ dec 2 m ++ str "-" ++ dec 2 d
  | COther => True
  end.
Definition within (a b : text) : Prop := exists p q, b = p ++ a ++ q.
Definition ended (e t : text) : Prop := exists p, t = p ++ e.
Definition base_name (date : text) (v : tag) : text := date ++ str "_rar" ++ dec 1 (t_large v) ++ dec 2 (t_small v) ++ t_beta v.
(** an installer that is used, and the name of its executable *)
Definition wanted (enable_beta : bool) (f : text) (c : content) (k : text) : Prop :=
  exists v date, clear_name f v /\ 2 <= t_large v /\ (enable_beta = true \/ t_beta v = []) /\ dated c date /\
  ((exists files, c = CRar files) /\ ended (str ".exe") f /\ ~ within (str ".sfx") f /\ k = base_name date v ++ str ".exe" \/
   (exists files, c = CRar files) /\ ended (str ".sfx") f /\ k = base_name date v \/
   c = CTar date /\ ended (str ".tar.gz") f /\ k = base_name date v).
(** what a file in the folder is known to be afterwards *)
Definition comes_from (l : list (text * content)) (enable_beta : bool) (k f : text) : Prop :=
  exists c v date e rest, In (f, c) l /\ (three f v rest \/ two f v rest \/ unix f v rest) /\ 2 <= t_large v /\ (enable_beta = true \/ t_beta v = []) /\ dated c date /\
  (k = base_name date v \/ k = base_name date v ++ str ".exe") /\
  exe_file k e /\ x_date e = date /\ x_major e = t_large v /\ x_minor e = t_small v.
