(** The end of a client with sessions and scheduled requests. *)
From Verif Require Import Prelude Ser4 Messages Mbap Client Server Database System.
From Verif Require Import AsyncWrite ClientConn ClientTcp Listener ServerConn ServerTcp World.
From Verif Require Import Scheduled SessionCall Session Full.
From Verif Require Import SpecPdu SpecMbap SpecClient SpecServer SpecDb SpecConn SpecClientTcp SpecServerTcp SpecSystem SpecSession SpecWorld SpecFull.
From Verif Require Import ClientCases SystemCases SpecWorld WorldCases FullCases SpecFullEnd FullEndRun FullEndCases.

(** ** C113: after a shutdown, sessions and scheduled requests come to an end

    Somebody, a thread or a handler, has called [shutdown] on a channel, and the closures
    that were posted by then were executed, and those that were posted by these.  Then
    whatever still happens at the client, at the timers of the scheduled requests too, is
    well defined and comes to an end with nothing left, in whatever order it happens and
    whatever the network and the server do. *)
Theorem C113_sessions_end :
  forall {W : Type} (user : users W) pol units d w0 es w l es1 w1 l1 es2 w2 l2,
  full_history user pol units d w0 es w l -> In (FK (Asked CloseChannel)) l -> Forall typed_fevent (es1 ++ es2) ->
  full_run user pol w es1 = Ret (w1, l1) -> (List.length (tc_order (wd_client w)) <= fruns es1)%nat ->
  full_run user pol w1 es2 = Ret (w2, l2) -> (List.length (tc_order (wd_client w1)) <= fruns es2)%nat ->
  comes_to_end user pol (wd_client w2).
Proof. exact @sessions_end. Qed.
Print Assumptions C113_sessions_end.

(** An executor that does not forget closures has only finitely much to do. *)
Theorem C113_sessions_end_fairly :
  forall {W : Type} (user : users W) pol units d w0 es0 l ws es,
  full_history user pol units d w0 es0 (ws 0%nat) l -> In (FK (Asked CloseChannel)) l ->
  goes_on_forever user pol ws es -> closures_served ws es -> ~ (forall n, exists m, (n <= m)%nat /\ client_enabled (ws m) (es m)).
Proof. exact @sessions_end_fairly. Qed.
Print Assumptions C113_sessions_end_fairly.

(** The handler of a scheduled request shuts the channel down; when this was executed, a
    timer is still armed, the session is still to be closed and a read is outstanding. *)
Example C113_case : exists w l w1 l1 w2 l2,
  full_history then_closes Truncate [9] three_registers full_from whole_line w l /\ ~ In (FApi CloseChannel) whole_line /\ In (FK (Asked CloseChannel)) l /\
  full_run then_closes Truncate w [FWorld turn_of_client] = Ret (w1, l1) /\ (List.length (tc_order (wd_client w)) <= fruns [FWorld turn_of_client])%nat /\
  full_run then_closes Truncate w1 [FWorld turn_of_client] = Ret (w2, l2) /\ (List.length (tc_order (wd_client w1)) <= fruns [FWorld turn_of_client])%nat /\
  (ks_queue (wd_user w2) <> [] /\ cn_reads (tc_conn (wd_client w2)) <> [] /\ Exists (fun p => sr_armed (po_sched p) <> []) (ks_polls (wd_user w2))) /\
  comes_to_end then_closes Truncate (wd_client w2).
Proof. exact closed_by_user. Qed.
