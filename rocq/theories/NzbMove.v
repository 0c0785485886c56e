(** NzbMove: where NZB files are put, and the test of the last segment (usenet/srr_usenet.py). *)
From Verif Require Import VolName.
From Verif Require Import Base Path.

(** what create_srr did.  In Python 3 IOError and socket.error are OSError.  [XNntp]: an NNTPError that is no
    NNTPPermanentError, or a YencException, with its first argument *)
Inductive nexn := XOS | XRuntime | XInterrupt | XAssert | XIncomplete | XNotFound | XRepack | XPermanent | XNntp (ename : option text) | XOther.
Inductive outcome := OMade | ONotMade | OErr (e : nexn).
(** paths of files and what they are *)
Definition disk : Type := list (text * N).
Definition drop (k : text) (d : disk) : disk := filter (fun x => negb (teqb (fst x) k)) d.
Fixpoint dget (k : text) (d : disk) : option N := match d with [] => None | (n, v) :: d => if teqb n k then Some v else dget k d end.
(** srr_usenet.py:1356-1361 move_nzb, with os.rename of Linux; an error is printed.  Folders can be made. *)
Definition move_nzb (source destination : text) (d : disk) : disk :=
  match dget source d with
  | None => d
  | Some v => (destination, v) :: drop destination (drop source d)
  end.
Definition has_text (a b : text) : bool := match find_sub N.eqb a b with Some _ => true | None => false end.
(** srr_usenet.py:1253-1256 in a dry run no SRR file is made and the result stays False *)
Definition create_srr_out (dry : bool) (o : outcome) : outcome := if dry then match o with OMade => ONotMade | _ => o end else o.
Definition to_folder (nzb folder : text) : text := pjoin_all (dirname nzb) [folder; basename nzb].
(** how the handling of a file ends the program: sys.exit(1), or an exception *)
Inductive stop := SExit | SRaise.
(** srr_usenet.py:1354-1429 create_srr_nzbmove *)
Definition nzbmove (dry : bool) (nzb : text) (o : outcome) (d : disk) : disk * option stop :=
  let move folder := move_nzb nzb (to_folder nzb folder) d in
  let move_wet folder := if dry then d else move folder in
  let e := match create_srr_out dry o with
           | OMade => None
           | ONotMade => Some XIncomplete
           | OErr e => Some e
           end in
  match e with
  | None => (move_wet (str "success"), None)
  | Some XOS => (d, None)
  | Some XRuntime => (d, Some SRaise)
  | Some XInterrupt => (d, Some SExit)
  | Some XAssert => (d, Some SExit)
  | Some XIncomplete | Some XNotFound => (move (str "bad"), None)
  | Some XRepack => (move (str "repacks"), None)
  | Some XPermanent => (move_wet (str "5xxerror"), None)
  | Some (XNntp None) => (d, Some SRaise)
  | Some (XNntp (Some ename)) =>
    if teqb ename (str "Failure on all servers.") || has_text (str "430") ename || teqb ename (str "No data available to decode.")
    then (move_wet (str "serverfailure"), None)
    else (move_wet (str "failure"), None)
  | Some XOther => (move_wet (str "unknownerror"), None)
  end.
(** srr_usenet.py:1431-1441 process_dir: what glob finds in a folder whose name has none of the characters *?[, one after
    the other.  The handler for IOError is not reached, since IOError is caught as socket.error. *)
Fixpoint process (dry : bool) (out : text -> outcome) (l : list text) (d : disk) : disk * option stop :=
  match l with
  | [] => (d, None)
  | nzb :: l =>
    match nzbmove dry nzb (out nzb) d with
    | (d, Some s) => (d, Some s)
    | (d, None) => process dry out l d
    end
  end.
Definition in_folder_b (p f : text) : bool :=
  starts_with N.eqb (p ++ [47]) f &&
  let n := skipn (length p + 1) f in
  negb (existsb (N.eqb 47) n) && VolName.ends_with (str ".nzb") n && negb (first_is 46 n).
Definition process_dir (dry : bool) (out : text -> outcome) (p : text) (d : disk) : disk * option stop :=
  process dry out (filter (in_folder_b p) (map fst d)) d.

(** ** STAT *)
(** what a server answers to STAT: a response, which starts with 223 or not; NNTPTemporaryError; another NNTPError *)
Inductive reply := RFound | ROther | RTemp | RPerm.
(** an extra server: its answer if one can connect; an NNTP error or an OSError when connecting *)
Inductive extra := ELogin (r : reply) | EDenied | ENoRoute.
(** srr_usenet.py:1045-1076: the other servers are connected to, but the first one is asked again *)
Fixpoint stat_others (main : reply) (servers : list extra) : result bool :=
  match servers with
  | [] => Ok false
  | ENoRoute :: _ => Err OSError
  | EDenied :: servers => stat_others main servers
  | ELogin _ :: servers =>
    match main with
    | RFound => Ok true
    | ROther => Ok false
    | RTemp | RPerm => stat_others main servers
    end
  end.
(** srr_usenet.py:1019-1081 stat_last_segment, without the GROUP command; answers do not change.  NNTPPermanentError is
    given as ValueError. *)
Definition stat_last_segment (nostat have : bool) (main : reply) (servers : list extra) : result bool :=
  if nostat then Ok true
  else if have then Ok true
  else match main with
       | RFound => Ok true
       | RPerm => Err ValueError
       | ROther | RTemp => stat_others main servers
       end.
