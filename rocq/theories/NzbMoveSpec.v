(** NzbMoveSpec: where NZB files belong. *)
From Verif Require Import Base Path NzbMove.

(** the server does not have the data *)
Definition server_failure (t : text) : Prop := t = str "Failure on all servers." \/ (exists a b, t = a ++ str "430" ++ b) \/ t = str "No data available to decode.".
(** the folder for NZB files of an outcome *)
Inductive belongs : outcome -> text -> Prop :=
| b_made : belongs OMade (str "success")
| b_not : belongs ONotMade (str "bad")
| b_incomplete : belongs (OErr XIncomplete) (str "bad")
| b_missing : belongs (OErr XNotFound) (str "bad")
| b_repack : belongs (OErr XRepack) (str "repacks")
| b_denied : belongs (OErr XPermanent) (str "5xxerror")
| b_server t : server_failure t -> belongs (OErr (XNntp (Some t))) (str "serverfailure")
| b_news t : ~ server_failure t -> belongs (OErr (XNntp (Some t))) (str "failure")
| b_unknown : belongs (OErr XOther) (str "unknownerror").
(** outcomes that end the program *)
Definition ends_program (o : outcome) : Prop := In o [OErr XRuntime; OErr XInterrupt; OErr XAssert; OErr (XNntp None)].
Definition folder_path (p : text) : Prop := p <> [] /\ last_is 47 p = false.
(** an NZB file directly in a folder *)
Definition nzb_in (p f : text) : Prop := exists n, f = p ++ 47 :: n /\ n <> [] /\ ~ In 47 n.
(** not hidden, and with the extension *)
Definition nzb_name (n : text) : Prop := ~ In 47 n /\ (exists b, n = b ++ str ".nzb") /\ (forall r, n <> 46 :: r).
(** [q] is the place for the file [f] of the folder [p] *)
Definition place_for (p : text) (out : text -> outcome) (q f : text) : Prop :=
  exists n place, f = p ++ 47 :: n /\ ~ In 47 n /\ belongs (out f) place /\ q = p ++ 47 :: place ++ 47 :: n.
(** the files [l] of the folder [p] are where they belong and all others where they were *)
Definition sorted_out (p : text) (out : text -> outcome) (l : list text) (d d' : disk) : Prop :=
  forall q v, In (q, v) d' <->
    (exists f, In f l /\ place_for p out q f /\ In (f, v) d) \/
    (In (q, v) d /\ (forall f, In f l -> ~ place_for p out q f) /\ ~ (In q l /\ exists place, belongs (out q) place)).
(** a server has the last segment *)
Definition available (main : reply) (servers : list extra) : Prop := main = RFound \/ In (ELogin RFound) servers.
