(** What a server does is bounded by what it receives. *)
From Verif Require Import Prelude Ser4 Messages Mbap SpecPdu SpecMbap Server SpecServer ServerLemmas Listener AsyncWrite ServerConn SpecConn
  ServerTcp SpecServerTcp ServerTcpCases SpecBound BoundFacts BoundTcpFacts BoundCases.

(** ** C119: a server's answers are bounded by what it receives

    On each connection, whatever the sessions answer and however the data is cut: for 12
    bytes received at most 260 are sent.  Nothing is sent unasked. *)
Theorem C119_bytes : forall {W : Type} (on_request : N -> W -> request -> W * expected response * list api) (on_shutdown : N -> W -> W * list api),
  well_typed on_request -> forall pol w es s' w' os, Forall typed_event es ->
  server_run on_request on_shutdown pol server_init w es = Ret (s', w', os) ->
  forall c, (12 * sent_on c os <= 260 * received_on c es)%nat.
Proof. exact @bytes_bound. Qed.
Print Assumptions C119_bytes.

(** At most 259 if the sessions answer as many values as they are asked for. *)
Theorem C119_in_kind : forall {W : Type} (on_request : N -> W -> request -> W * expected response * list api) (on_shutdown : N -> W -> W * list api),
  well_typed on_request -> forall pol w es s' w' os, Forall typed_event es ->
  server_run on_request on_shutdown pol server_init w es = Ret (s', w', os) ->
  forall c, answers_in_kind on_request -> (12 * sent_on c os <= 259 * received_on c es)%nat.
Proof. exact @bytes_bound_kind. Qed.
Print Assumptions C119_in_kind.

(** A frame is sent for at least eight bytes. *)
Theorem C119_frames : forall {W : Type} (on_request : N -> W -> request -> W * expected response * list api) (on_shutdown : N -> W -> W * list api),
  well_typed on_request -> forall pol w es s' w' os, Forall typed_event es ->
  server_run on_request on_shutdown pol server_init w es = Ret (s', w', os) ->
  forall c, (8 * List.length (sends_on c os) <= received_on c es)%nat.
Proof. exact @frames_bound. Qed.
Print Assumptions C119_frames.

(** The same for all connections together. *)
Theorem C119_all_bytes : forall {W : Type} (on_request : N -> W -> request -> W * expected response * list api) (on_shutdown : N -> W -> W * list api),
  well_typed on_request -> forall pol w es s' w' os, Forall typed_event es ->
  server_run on_request on_shutdown pol server_init w es = Ret (s', w', os) ->
  (12 * sent_to_all os <= 260 * received_by_all es)%nat.
Proof. exact @all_bytes_bound. Qed.
Print Assumptions C119_all_bytes.

(** A session is asked for at least twelve bytes. *)
Theorem C119_consultations : forall {W : Type} (on_request : N -> W -> request -> W * expected response * list api) (on_shutdown : N -> W -> W * list api),
  well_typed on_request -> forall pol w es s' w' os, Forall typed_event es ->
  server_run on_request on_shutdown pol server_init w es = Ret (s', w', os) ->
  (12 * consultations os <= received_by_all es)%nat.
Proof. exact @consultations_bound. Qed.
Print Assumptions C119_consultations.

(** The same on the wire: what the transport takes against what arrives. *)
Theorem C119_wire : forall {W : Type} (on_request : N -> W -> request -> W * expected response * list api) (on_shutdown : N -> W -> W * list api),
  well_typed on_request -> forall pol max w0 es h m c, server_history on_request on_shutdown pol max w0 es h m ->
  (12 * bytes_out (peer_outs c m) <= 260 * bytes_in (peer_outs c m))%nat.
Proof. exact @wire_bound. Qed.
Print Assumptions C119_wire.

Theorem C119_wire_in_kind : forall {W : Type} (on_request : N -> W -> request -> W * expected response * list api) (on_shutdown : N -> W -> W * list api),
  well_typed on_request -> forall pol max w0 es h m c, answers_in_kind on_request ->
  server_history on_request on_shutdown pol max w0 es h m ->
  (12 * bytes_out (peer_outs c m) <= 259 * bytes_in (peer_outs c m))%nat.
Proof. exact @wire_bound_kind. Qed.
Print Assumptions C119_wire_in_kind.

(** The bounds are reached. *)
Example C119_reached : well_typed (demo 126) /\ Forall typed_event (asked_once 1) /\
  exists s w os, server_run (demo 126) demo_shutdown Truncate server_init 0%nat (asked_once 1) = Ret (s, w, os) /\
    sent_on 9 os = 260%nat /\ received_on 9 (asked_once 1) = 12%nat /\ consultations os = 1%nat /\
    sent_to_all os = 260%nat /\ received_by_all (asked_once 1) = 12%nat.
Proof.
  split; [apply demo_typed|]. split; [apply asked_once_typed; reflexivity|].
  do 3 eexists. split; [vm_compute; reflexivity|]. vm_compute. repeat split; reflexivity.
Qed.

Example C119_reached_in_kind : well_typed honest /\ answers_in_kind honest /\ Forall typed_event (asked_once 125) /\
  exists s w os, server_run honest demo_shutdown Truncate server_init 0%nat (asked_once 125) = Ret (s, w, os) /\
    sent_on 9 os = 259%nat /\ received_on 9 (asked_once 125) = 12%nat.
Proof.
  split; [apply honest_typed|]. split; [apply honest_in_kind|]. split; [apply asked_once_typed; reflexivity|].
  do 3 eexists. split; [vm_compute; reflexivity|]. vm_compute. repeat split; reflexivity.
Qed.

Example C119_reached_frames : exists s w os, server_run honest demo_shutdown Truncate server_init 0%nat short_request = Ret (s, w, os) /\
  List.length (sends_on 9 os) = 1%nat /\ received_on 9 short_request = 8%nat.
Proof. do 3 eexists. split; [vm_compute; reflexivity|]. vm_compute. repeat split; reflexivity. Qed.

Example C119_wire_case : bytes_out (peer_outs 0 (marks 4 two_clients)) = 11%nat /\ bytes_in (peer_outs 0 (marks 4 two_clients)) = 12%nat.
Proof. vm_compute. split; reflexivity. Qed.
