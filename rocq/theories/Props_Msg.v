(** Props_Msg: no progress message is lost (C41).  [ms] and [all] are the codes to show and whether to show
    all of them; a schedule says which thread does each step. *)
From Verif Require Import Base Msg MsgSpec MsgFacts.

(** C41 is false: there is a schedule after which both threads have ended and a message has not been shown. *)
Theorem C41_refuted : exists ms all es sch, let s := run ms all (start (whole (map Emit es))) sch in
  cpc s = CEnd /\ prog s = [] /\ ~ lines ms all es (out s).
Proof. exact message_lost. Qed.
Print Assumptions C41_refuted.

(** What holds for all schedules: nothing is shown twice, out of order or without having been reported. *)
Theorem C41_order_partial : forall ms all p sch,
  exists es, subseq es (emitted p) /\ lines ms all es (out (run ms all (start p) sch)).
Proof. exact order. Qed.
Print Assumptions C41_order_partial.

(** All messages are shown if none is put in the list between the end of the display loop and the
    replacement of the list.  Missing from C41: schedules with such a step, where it is false. *)
Theorem C41_in_time_partial : forall ms all p sch,
  no_stop p -> in_time ms all (start (whole p)) sch -> cpc (run ms all (start (whole p)) sch) = CEnd ->
  lines ms all (emitted p) (out (run ms all (start (whole p)) sch)).
Proof. exact all_in_time. Qed.
Print Assumptions C41_in_time_partial.

(** A message put at that time is always lost. *)
Theorem C41_lost_partial : forall ms all p a b e q,
  no_stop p -> too_late (run ms all (start (whole p)) a) -> prog (run ms all (start (whole p)) a) = Emit e :: q -> (In (e_code e) ms \/ all = true) ->
  cpc (run ms all (start (whole p)) (a ++ false :: b)) = CEnd ->
  ~ lines ms all (emitted p) (out (run ms all (start (whole p)) (a ++ false :: b))).
Proof. exact lost. Qed.
Print Assumptions C41_lost_partial.

(** If wait_for_output is called after each message, all of them are shown, whatever the schedule. *)
Theorem C41_waited_partial : forall ms all es sch,
  cpc (run ms all (start (whole (waiting es))) sch) = CEnd -> lines ms all es (out (run ms all (start (whole (waiting es))) sch)).
Proof. exact all_waited. Qed.
Print Assumptions C41_waited_partial.

(** When done has been set, the message thread ends: it needs no more steps than messages waiting, and ten. *)
Theorem C41_ends_partial : forall ms all p sch, done (run ms all (start p) sch) = true ->
  let s := run ms all (start p) sch in cpc (run ms all s (repeat true (length (nth_list s (cur s)) + 10))) = CEnd.
Proof. exact thread_ends. Qed.
Print Assumptions C41_ends_partial.

Example C41_example_lost : let s := run [] true (start (whole [Emit m1; Emit m2])) bad_schedule in
  cpc s = CEnd /\ prog s = [] /\ out s = [(Stdout, bstr "a")].
Proof. exact bad_run. Qed.
Example C41_example_in_time : let s := run [6] false (start (whole [Emit m1; Emit m2])) good_schedule in
  in_time [6] false (start (whole [Emit m1; Emit m2])) good_schedule /\ cpc s = CEnd /\ out s = [(Stderr, bstr "b")].
Proof. exact good_run. Qed.
Example C41_example_waited : let s := run [] true (start (whole (waiting [m1; m2]))) (repeat false 3 ++ repeat true 8 ++ repeat false 3 ++ repeat true 6 ++ [false] ++ repeat true 6 ++ repeat false 2 ++ repeat true 4) in
  cpc s = CEnd /\ out s = [(Stdout, bstr "a"); (Stderr, bstr "b")].
Proof. exact wait_run. Qed.
