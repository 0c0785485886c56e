(** UsenetSrrSpec: SRR files of posted files. *)
From Verif Require Import VolSpec.
From Verif Require Import Base Rar Srr Sfv SfvSpec SrrSpec UsenetSrr.

(** a posted file whose size is that of its data *)
Definition honest (u : ufile) : Prop := forall d, u_data u = Some d -> storable (u_name u) /\ lenN d < 4294967296 /\ u_size u = lenN d.
(** names and data of the files that can be read, in order *)
Definition readable (us : list ufile) : list (text * bytes) := flat_map (fun u => match u_data u with Some d => [(u_name u, d)] | None => [] end) us.
(** the file has the name, but for capitals *)
Definition called (d : udict) (r : text) (u : ufile) : Prop := exists k, In (k, u) d /\ lower k = lower r.
(** names that are found: the same, or the one is the other in small letters *)
Definition fits (r k : text) : Prop := k = r \/ k = lower r \/ lower k = r.
(** the file that is used for a name: the one with the same name or the first that fits *)
Definition picks (d : udict) (r : text) (u : ufile) : Prop :=
  In (r, u) d \/ (~ In r (map fst d) /\ exists a k b, d = a ++ (k, u) :: b /\ fits r k /\ forall k', In k' (map fst a) -> ~ fits r k').
(** names that differ not only in capitals *)
Definition apart (l : list text) : Prop := forall r r', In r l -> In r' l -> lower r = lower r' -> r = r'.
(** a file with an archive end block *)
Definition has_end (u : ufile) : Prop := exists d bs b, u_data u = Some d /\ read_all d = Ok bs /\ In b bs /\ b_type b = T_RarMax.
(** a posted SFV file of volumes 0 .. n-1 of a set *)
Definition sfv_posted (u : ufile) (sn : style * nat) : Prop :=
  style_ok (fst sn) /\ (0 < snd sn)%nat /\ N.of_nat (snd sn) <= vol_limit (fst sn) /\
  exists data es cs rs, u_data u = Some data /\ parse_sfv_data data = Ok (es, cs, rs) /\ sfv_of_set (fst sn) (snd sn) es.
Definition set_names (sets : list (style * nat)) : list text := concat (map (fun sn => vol_names (fst sn) (snd sn)) sets).
(** a posted file as name and data *)
Definition vol_of (u : ufile) (nd : text * bytes) : Prop := u_name u = fst nd /\ u_data u = Some (snd nd).
(** SFV files that are of no use: none, or the first is empty *)
Definition useless (sfvs : list ufile) : Prop := sfvs = [] \/ exists u r d cs rs, sfvs = u :: r /\ u_data u = Some d /\ parse_sfv_data d = Ok ([], cs, rs).
