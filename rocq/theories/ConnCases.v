(** Concrete histories of the connections. *)
From Verif Require Import Prelude Ser4 Messages Mbap SpecPdu SpecMbap Server SpecServer ServerLemmas AsyncWrite ClientConn ServerConn SpecConn.
From Coq Require Import Lia.

Ltac settle := repeat (split; [cbn; auto; try discriminate|]; intros ? ? HE; vm_compute in HE; injection HE as <- <-); try exact Logic.I.

(** The peer closes the connection in the middle of a response. *)
Definition cut_response : list N := firstn 9 (frame_bytes 0 1 [3; 2; 0; 7]).

Definition interrupted : list nevent :=
  [NSend [1] setup_ok; NResolved true; NConnected 1 true; NTransfer 0 1; NWritten 0 true;
   NRead 0 (RData cut_response); NRead 1 REof; NRun;
   NSend [2] setup_ok; NResolved true; NConnected 3 true; NTransfer 1 1; NWritten 1 true;
   NRead 2 (RData (frame_bytes 1 1 [3; 2; 0; 9]))].

Lemma interrupted_corrupts : exists s os a g b,
  conn_run cconn_init interrupted = Ret (s, os) /\ always reads_settled cconn_init interrupted /\
  always writes_settled cconn_init interrupted /\ always whole_transfers cconn_init interrupted /\
  os = a ++ Established g :: b /\ received_data b = [frame_bytes 1 1 [3; 2; 0; 9]] /\
  forall pol, exists st outs, mbap_run pol (mbap_new (repeat 0 260)) (parser_ops os) = Ret (st, outs) /\
    outs = [{| mb_unit := 1; mb_tx := 0; mb_data := [3; 2; 0; 1] |}] /\
    ~ In {| mb_unit := 1; mb_tx := 1; mb_data := [3; 2; 0; 9] |} outs.
Proof.
  do 2 eexists. exists [Attempt; Established 1; Write (WStarted 0 [1]); Write (WTook 0 [1]); Write (WDone 0); WriteDone;
    Received 1 cut_response; PeerClosed 1; SocketClosed 1; Attempt], 3%nat. eexists.
  split; [vm_compute; reflexivity|]. split; [unfold interrupted; settle|]. split; [unfold interrupted; settle|].
  split.
  { unfold interrupted.
    repeat (split; [cbn; auto; try (intros o Ho; cbn in Ho; injection Ho as <-; reflexivity)|];
            intros ? ? HE; vm_compute in HE; injection HE as <- <-); exact Logic.I. }
  split; [reflexivity|]. split; [reflexivity|].
  intros [|]; do 2 eexists; (split; [vm_compute; reflexivity|]); (split; [reflexivity|]); intros [K|[]]; discriminate K.
Qed.

(** A second request while the first one is still being written. *)
Lemma client_replaces_in_flight :
  conn_run cconn_init [NSend [1] setup_ok; NResolved true; NConnected 1 true; NSend [2] setup_ok; NTransfer 0 1] = UB.
Proof. reflexivity. Qed.

(** A second request before the completion of the first write is noticed. *)
Lemma client_frees_in_flight :
  conn_run cconn_init [NSend [1] setup_ok; NResolved true; NConnected 1 true; NTransfer 0 1; NSend [2] setup_ok;
                       NWritten 0 true; NTransfer 1 1] = UB.
Proof. reflexivity. Qed.

(** Two requests in one chunk: the channel answers both, and the second answer
    replaces the buffer of the first. *)
Definition payload (f : list (option N)) : list N := map (fun b => match b with Some x => x | None => 0 end) f.

Lemma server_replaces_in_flight : exists s w s' w' os,
  server_run (demo 1) demo_shutdown Truncate server_init 0%nat [EApi (ApiAdd 5 1); ERun; EAccept 9 (repeat 0 260)] = Ret (s, w, []) /\
  server_step (demo 1) demo_shutdown Truncate s w (EReceive 9 (read_frame 1 5 ++ read_frame 2 5)) = Ret (s', w', os) /\
  map payload (sends_on 9 os) = [frame_bytes 1 5 [3; 2; 0; 7]; frame_bytes 2 5 [3; 2; 0; 7]] /\
  vconn_run sconn_init ([VStart; VRead 0 (RData (read_frame 1 5 ++ read_frame 2 5))] ++ map VSend (map payload (sends_on 9 os)) ++
                        [VTransfer 0 11]) = UB.
Proof.
  do 5 eexists. split; [vm_compute; reflexivity|]. split; [vm_compute; reflexivity|]. split; vm_compute; reflexivity.
Qed.

(** The transport takes a part of the frame. *)
Definition short_write : list nevent :=
  [NSend [1; 2; 3] setup_ok; NResolved true; NConnected 1 true; NTransfer 0 1; NWritten 0 true].

Lemma client_short_write : exists s os, conn_run cconn_init short_write = Ret (s, os) /\
  os = [Attempt; Established 1; Write (WStarted 0 [1; 2; 3]); Write (WTook 0 [1]); Write (WDone 0); WriteDone] /\
  always writes_settled cconn_init short_write /\ ~ complete_writes (writes os) /\ wr_buffer (cn_writer s) = None /\ wr_ops (cn_writer s) = [].
Proof.
  do 2 eexists. split; [vm_compute; reflexivity|]. split; [reflexivity|]. split; [unfold short_write; settle|]. split; [|split; reflexivity].
  intro C. destruct (C [WStarted 0 [1; 2; 3]; WTook 0 [1]] 0%nat [] eq_refl) as (d & H1 & H2). cbn in H1, H2.
  destruct H1 as [H1|[]], H2 as [H2|[]]. congruence.
Qed.

Definition vshort_write : list vevent := [VStart; VSend [1; 2; 3]; VTransfer 0 1; VWritten 0 true].

Lemma server_short_write : exists s os, vconn_run sconn_init vshort_write = Ret (s, os) /\
  os = [VWrite (WStarted 0 [1; 2; 3]); VWrite (WTook 0 [1]); VWrite (WDone 0); VWriteDone] /\
  valways vwrites_settled sconn_init vshort_write /\ ~ complete_writes (vwrites os) /\
  wr_buffer (vn_writer s) = None /\ wr_ops (vn_writer s) = [].
Proof.
  do 2 eexists. split; [vm_compute; reflexivity|]. split; [reflexivity|]. split; [unfold vshort_write; settle|]. split; [|split; reflexivity].
  intro C. destruct (C [WStarted 0 [1; 2; 3]; WTook 0 [1]] 0%nat [] eq_refl) as (d & H1 & H2). cbn in H1, H2.
  destruct H1 as [H1|[]], H2 as [H2|[]]. congruence.
Qed.

(** A write error also makes the outstanding read fail; its error arrives when the
    next attempt is in progress, and destroys it. *)
Definition echo : list nevent :=
  [NSend [1] setup_ok; NResolved true; NConnected 1 true; NWritten 0 false; NRun; NSend [2] setup_ok; NRead 0 RError; NRun].

Lemma failure_echo : exists s os, conn_run cconn_init echo = Ret (s, os) /\
  os = [Attempt; Established 1; Write (WStarted 0 [1]); Write (WFailed 0); Failed; SocketClosed 1; Attempt; Failed; SocketClosed 2] /\
  cn_status s = NotConnected /\ cn_resolves s = 1%nat.
Proof. do 2 eexists. split; [vm_compute; reflexivity|]. repeat split. Qed.

Lemma failure_twice : exists es s os, conn_run cconn_init es = Ret (s, os) /\ (count is_attempt os < count is_failed os)%nat.
Proof.
  exists [NSend [1] setup_ok; NResolved true; NConnected 1 true; NWritten 0 false; NRead 0 RError]. do 2 eexists.
  split; [vm_compute; reflexivity|]. cbn. lia.
Qed.
