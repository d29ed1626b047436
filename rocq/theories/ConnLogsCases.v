(** Concrete logs of connections. *)
From Verif Require Import Prelude Config AsyncWrite ClientConn ServerConn SpecConn ConnLogs SpecConnLogs ConnLogsFacts.
From Coq Require Import Lia.

(** The results of a run that matter here. *)
Definition summary (es : list nevent) : option (list tline * list noutput) :=
  match log_conn_run cconn_init es with Ret (_, l) => Some (said l, did l) | UB => None end.
Definition vsummary (es : list vevent) : option (list tline * list voutput) :=
  match log_vconn_run sconn_init es with Ret (_, l) => Some (said l, did l) | UB => None end.

Lemma summed es a b : summary es = Some (a, b) -> exists s l, log_conn_run cconn_init es = Ret (s, l) /\ said l = a /\ did l = b.
Proof. unfold summary. destruct (log_conn_run cconn_init es) as [[s l]|]; [intros [= <- <-]; eauto|discriminate]. Qed.
Lemma vsummed es a b : vsummary es = Some (a, b) -> exists s l, log_vconn_run sconn_init es = Ret (s, l) /\ said l = a /\ did l = b.
Proof. unfold vsummary. destruct (log_vconn_run sconn_init es) as [[s l]|]; [intros [= <- <-]; eauto|discriminate]. Qed.

Lemma one_exchange : exists s l,
  log_conn_run cconn_init [NSend [1; 2; 3] setup_ok; NResolved true; NConnected 1 true; NTransfer 0 3; NWritten 0 true;
                           NRead 0 (RData [4; 5]); NRead 1 REof; NRun] = Ret (s, l) /\
  said l = [Establishing; EstablishedLine; SentBytes 3; ReceivedBytes 2; ClosedByPeer; ClosingLine].
Proof. edestruct (summed [NSend [1; 2; 3] setup_ok; NResolved true; NConnected 1 true; NTransfer 0 3; NWritten 0 true;
                           NRead 0 (RData [4; 5]); NRead 1 REof; NRun]) as (s & l & E & K & _); [vm_compute; reflexivity|]. exists s, l. split; [exact E|exact K]. Qed.

Lemma one_exchange_well : Forall goes_well [NSend [1; 2; 3] setup_ok; NResolved true; NConnected 1 true; NTransfer 0 3; NWritten 0 true;
                                            NRead 0 (RData [4; 5]); NRead 1 REof; NRun].
Proof. repeat constructor; discriminate. Qed.

Theorem setup_unreported :
  ~ (forall es s l, log_conn_run cconn_init es = Ret (s, l) ->
     how_many error_line (said l) = List.length (filter (fun x => match x with Failed => true | _ => false end) (did l))).
Proof.
  intro H. edestruct (summed [NSend [1] {| su_address := true; su_open := true; su_bind := false |}]) as (s & l & E & K & L); [vm_compute; reflexivity|].
  apply H in E. rewrite K, L in E. discriminate E.
Qed.

Theorem closed_unestablished :
  ~ (forall es s l, log_conn_run cconn_init es = Ret (s, l) ->
     (how_many (is_line ClosingLine) (said l) <= how_many (is_line EstablishedLine) (said l))%nat).
Proof.
  intro H. edestruct (summed [NSend [1] setup_ok; NResolved true; NConnected 1 false; NRun]) as (s & l & E & K & L); [vm_compute; reflexivity|].
  apply H in E. rewrite K in E. cbn in E. lia.
Qed.

(** A read and a write fail, both close the connection, the second time the next attempt;
    the one after that overlaps with it. *)
Definition two_attempts : list nevent :=
  [NSend [1] setup_ok; NResolved true; NConnected 1 true; NRead 0 RError; NWritten 0 false; NRun;
   NSend [2] setup_ok; NRun; NSend [3] setup_ok; NResolved true; NConnected 4 true; NResolved true; NConnected 5 true].

Lemma two_attempts_said : exists s l, log_conn_run cconn_init two_attempts = Ret (s, l) /\
  said l = [Establishing; EstablishedLine; ReadError; WriteError; ClosingLine; Establishing; ClosingLine; Establishing;
            EstablishedLine; EstablishedLine].
Proof. edestruct (summed two_attempts) as (s & l & E & K & _); [vm_compute; reflexivity|]. exists s, l. split; [exact E|exact K]. Qed.

Theorem established_twice :
  ~ (forall es s l a b c, log_conn_run cconn_init es = Ret (s, l) ->
     said l = a ++ [EstablishedLine] ++ b ++ [EstablishedLine] ++ c -> In ClosingLine b).
Proof.
  intro H. destruct two_attempts_said as (s & l & E & K).
  apply (H two_attempts s l [Establishing; EstablishedLine; ReadError; WriteError; ClosingLine; Establishing; ClosingLine; Establishing] [] []);
    assumption.
Qed.

Lemma server_exchange : exists s l,
  log_vconn_run sconn_init [VStart; VRead 0 (RData [4; 5]); VSend [1; 2; 3]; VTransfer 0 3; VWritten 0 true; VRead 1 REof; VRun] = Ret (s, l) /\
  said l = [EstablishedLine; ReceivedBytes 2; SentBytes 3; ReadError; ClosingLine].
Proof. edestruct (vsummed [VStart; VRead 0 (RData [4; 5]); VSend [1; 2; 3]; VTransfer 0 3; VWritten 0 true; VRead 1 REof; VRun]) as (s & l & E & K & _); [vm_compute; reflexivity|]. exists s, l. split; [exact E|exact K]. Qed.

Theorem end_is_error :
  ~ (forall es s l, Forall vgoes_well es -> log_vconn_run sconn_init es = Ret (s, l) -> forall x, In x (said l) -> error_line x = false).
Proof.
  intro H. edestruct (vsummed [VStart; VRead 0 REof]) as (s & l & E & K & L); [vm_compute; reflexivity|].
  apply H with (x := ReadError) in E; [discriminate E|repeat constructor; discriminate|]. rewrite K. cbn. auto.
Qed.

Theorem shutdown_unlogged :
  ~ (forall es s l, log_vconn_run sconn_init es = Ret (s, l) -> In VRemoved (did l) -> In ClosingLine (said l) \/ In ReadError (said l)).
Proof.
  intro H. edestruct (vsummed [VStart; VShutdown; VRun]) as (s & l & E & K & L); [vm_compute; reflexivity|].
  apply H in E; [|rewrite L; cbn; auto]. rewrite K in E. destruct E as [[E|[]]|[E|[]]]; discriminate E.
Qed.

Theorem errors_written : forall {S : Type} (base : logger S) name x,
  emits (channel_logger base name 4) (tline_severity x) = if error_line x then lg_sinks base else [].
Proof. intros S base name x. destruct x; reflexivity. Qed.

(** A connection that is refused, and a name that cannot be resolved. *)
Example refusals : exists s l,
  log_conn_run cconn_init [NSend [1] setup_ok; NResolved true; NConnected 1 false; NRun; NSend [2] setup_ok; NResolved false] = Ret (s, l) /\
  said l = [Establishing; ConnectionError; ClosingLine; Establishing; ResolverError].
Proof. vm_compute. do 2 eexists. split; reflexivity. Qed.
