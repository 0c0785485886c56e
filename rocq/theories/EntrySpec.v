(** EntrySpec: what the command srr has to do. *)
From Verif Require Import Base Path PathSpec Sfv Dirs DirsSpec Entry.

(** the input can be worked on: there are files, and each is there and is an SRR, SFV or RAR file by its name *)
Definition good_input (exists_ : text -> bool) (infiles : list text) : Prop :=
  infiles <> [] /\ forall f, In f infiles -> exists_ f = true /\ (named ".srr" f \/ named ".sfv" f \/ named ".rar" f).
(** the options by precedence *)
Definition by_rank (s : switches) : list (bool * action) :=
  [(s_info s, Info); (s_details s, Details); (s_verify s, Verify); (s_extract s, Extract); (s_regex s, ExtractSome); (s_store s, Store); (true, Rebuild)].
Definition chosen (s : switches) (a : action) : Prop :=
  exists before later, by_rank s = before ++ (true, a) :: later /\ Forall (fun x => fst x = false) before.
(** all that was asked for has been done *)
Definition succeeds (g : given) (a : action) : Prop :=
  match a with
  | Info => g_info g = Ret tt
  | Details => g_details g = Ret tt
  | Verify => g_verify g = Ret 0
  | Extract => exists l, g_extract g = Ret l /\ forall p b, In (p, b) l -> b = true
  | ExtractSome => g_re g = true /\ exists l, g_some g = Ret l /\ forall p b, In (p, b) l -> b = true
  | Store => exists b, g_store g = Ret b
  | Rebuild => g_hints g = true /\ g_rebuild g = Ret tt
  end.
