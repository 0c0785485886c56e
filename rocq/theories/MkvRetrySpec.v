(** MkvRetrySpec: which places of the tracks of an MKV sample are tried when the CRC is wrong. *)
From Verif Require Import Base SrsRec Mkv.

(** the first and the last number of [P] *)
Definition range (P : N -> Prop) (lo hi : N) : Prop := P lo /\ P hi /\ forall o, P o -> lo <= o <= hi.
(** a place where a track was found that has no other places; [others]: the other places of the tracks *)
Definition settled (ts : mtracks) (others : list (N * list N)) (o : N) : Prop :=
  exists n t, In (n, t) ts /\ m_offset t = o /\ forall l, In (n, l) others -> l = [].
(** Of the other places [l] of a track these are worth trying: those between [lo] and [hi], the last one before [lo], the
    first one behind [hi]. *)
Definition worth (lo hi : N) (l : list N) (o : N) : Prop :=
  In o l /\ (lo < o < hi \/ (o < lo /\ forall p, In p l -> p < lo -> p <= o) \/ (hi < o /\ forall p, In p l -> hi < p -> o <= p)).
(** the places of track [n] that are tried *)
Definition tried (ts : mtracks) (others : list (N * list N)) (n o : N) : Prop :=
  exists t lo hi, In (n, t) ts /\ range (settled ts others) lo hi /\
  ((exists l, In (n, l) others /\ worth lo hi l o) \/ ((forall l p, In (n, l) others -> ~ worth lo hi l p) /\ o = m_offset t)).
(** A frame [x] of the main file, of which [inmain] was removed, as it is taken to be in the sample, in which [insample] is
    removed.  If both are not empty and differ this need not be that frame. *)
Definition as_sample (insample inmain x : bytes) : bytes :=
  if list_eq_dec Byte.byte_eq_dec insample inmain then x else inmain ++ dropN (lenN insample) x.
