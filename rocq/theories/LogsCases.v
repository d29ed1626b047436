(** Concrete logs. *)
From Verif Require Import Prelude Ser4 Messages Mbap SpecPdu SpecMbap Config Client SpecClient Server SpecServer Logs SpecLogs LogsFacts LogsEvents.

Definition mute (i : nat) (w : unit) (r : expected (list N)) : unit * list capi := (w, []).
Definition ask (r : request) : cevent := CApi (Submit {| k_unit := 7; k_msg := request_message r; k_timeout := 1000 |}).

(** Two requests: the second is sent when the first has timed out, its answer comes after
    that to the first, and then something that nobody waits for. *)
Definition busy_day : list cevent :=
  [ask (ReadCoils 0 8); ask (WriteSingleRegister 1 2); CRun; CRun; CExpire 0; CFire 0;
   CReceive [0; 0; 0; 0; 0; 4; 7; 1; 1; 255];
   CReceive [0; 1; 0; 0; 0; 6; 7; 6; 0; 1; 0; 2; 0; 1; 0; 0; 0; 3; 7; 1; 1];
   CError "reset"].

Lemma busy_day_logged : exists s w l, log_client_run mute AllOrNothing (client_init (repeat 0 260)) tt busy_day = Ret (s, w, l) /\
  log_lines l = [LogSending 7 0 1000 5; LogTimeout 7 0; LogSending 7 1 1000 5; LogReceived 10; LogUnexpected 7 0;
                 LogReceived 21; LogResponse 7 1; LogNotWaiting; LogError].
Proof. do 3 eexists. split; [vm_compute; reflexivity|reflexivity]. Qed.

(** An invalid request is refused without a line. *)
Lemma refused_unlogged :
  ~ (forall (W : Type) handler pol es buf (w : W) s w' l i e, good_buf buf -> Forall typed_cevent es ->
     log_client_run handler pol (client_init buf) w es = Ret (s, w', l) -> In (Completed i (Error e)) (seen l) -> log_lines l <> []).
Proof.
  intros H. specialize (H unit mute AllOrNothing [ask (ReadCoils 0 0); CRun] (repeat 0 260) tt).
  destruct (log_client_run mute AllOrNothing (client_init (repeat 0 260)) tt [ask (ReadCoils 0 0); CRun]) as [[[s w] l]|] eqn:E; [|discriminate E].
  specialize (H s w l 0%nat EMalformedRequest).
  assert (K : (seen l, log_lines l) = ([Called 0 {| k_unit := 7; k_msg := request_message (ReadCoils 0 0); k_timeout := 1000 |}; Completed 0 (Error EMalformedRequest)], [])).
  { vm_compute in E. injection E as _ _ <-. reflexivity. }
  injection K as K1 K2. rewrite K1, K2 in H. apply H; [|repeat constructor|reflexivity|right; left; reflexivity|reflexivity].
  split; [reflexivity|repeat constructor].
Qed.

(** Other failures have a line. *)
Lemma failures_logged l i e : well_logged l -> In (Completed i (Error e)) (seen l) ->
  match e with
  | ETimeout => exists unit tx, In (LogTimeout unit tx) (log_lines l)
  | EConnection _ => In LogError (log_lines l)
  | EMalformedRequest => True
  | _ => False
  end.
Proof.
  induction 1 as [|l l' _ IH E]; [intros []|]. rewrite seen_app, lines_app. intros H. apply in_app_or in H as [H|H].
  - specialize (IH H). destruct e; try exact IH.
    + destruct IH as (u & t & K). exists u, t. apply in_or_app. auto.
    + apply in_or_app. auto.
  - destruct E; cbn in H; repeat destruct H as [H|H]; try discriminate; try contradiction; injection H as <- <-.
    + do 2 eexists. apply in_or_app. right. left. reflexivity.
    + apply in_or_app. left. rewrite H0. fold (log_lines (l1 ++ Logged LogError :: map Seen l2)). rewrite lines_app. apply in_or_app. right. left. reflexivity.
    + exact I.
Qed.

(** A request that the session does not answer leaves no trace. *)
Lemma unanswered_unlogged :
  ~ (forall (W : Type) on_request s (w : W) c m s' w' l, well_typed on_request -> sv_shutdown s = false -> typed_message m ->
     log_on_mbap on_request s w c m = Ret (s', w', l) -> (forall c' frame, ~ In (OSend c' frame) (shown l)) -> notes l <> []).
Proof.
  intros H.
  refine (H unit (fun _ w _ => (w, Error (EOther 0), [])) {| sv_shutdown := false; sv_started := true; sv_sessions := [(7, 0)]; sv_queue := []; sv_conns := fun _ => None |}
    tt 0 {| mb_unit := 7; mb_tx := 0; mb_data := [1; 0; 0; 0; 8] |} _ _ _ _ eq_refl _ eq_refl _ eq_refl).
  - intros x w r w' resp calls E. discriminate.
  - split; [reflexivity|]. split; [reflexivity|repeat constructor].
  - intros c' frame [K|[]]. discriminate.
Qed.

(** At the level warn exactly what went wrong is written. *)
Lemma warnings_written {S : Type} (base : logger S) name x :
  emits (channel_logger base name 3) (cline_severity x) =
  match x with LogUnexpected _ _ | LogNotWaiting | LogTimeout _ _ | LogError => lg_sinks base | _ => [] end.
Proof. destruct x; reflexivity. Qed.

Lemma server_warnings_written {S : Type} (base : logger S) name x :
  emits (channel_logger base name 3) (sline_severity x) = match x with InfoShuttingDown => [] | _ => lg_sinks base end.
Proof. destruct x; reflexivity. Qed.

(** Six frames. *)
Definition served_units : server :=
  {| sv_shutdown := false; sv_started := true; sv_sessions := [(7, 0)]; sv_queue := []; sv_conns := fun _ => None |}.
Definition frame_of (u : N) (d : list N) : mbap_message := {| mb_unit := u; mb_tx := 0; mb_data := d |}.
Lemma six_frames : exists s w l,
  log_on_messages (fun _ w _ => (w, Value (SingleRegisterWritten 1 2), [])) served_units tt 0
    [frame_of 8 [6; 0; 1; 0; 2]; frame_of 7 []; frame_of 7 [99]; frame_of 7 [1; 0; 0; 0; 0]; frame_of 7 [6; 0]; frame_of 7 [6; 0; 1; 0; 2]] = Ret (s, w, l) /\
  notes l = [WarnUnknown 8; WarnInvalid; WarnUnsupported 99; WarnInvalid; WarnInvalid] /\ List.length (shown l) = 4%nat.
Proof. do 3 eexists. split; [vm_compute; reflexivity|split; reflexivity]. Qed.

(** ** Logging changes nothing *)

Lemma run_unchanged : forall {W : Type} (handler : nat -> W -> expected (list N) -> W * list capi) pol es s w,
  client_run handler pol s w es =
  match log_client_run handler pol s w es with Ret (s', w', l) => Ret (s', w', seen l) | UB => UB end.
Proof.
  intros. rewrite run_erase. destruct (log_client_run handler pol s w es) as [ [ [s' w'] l]|]; reflexivity.
Qed.

Lemma srun_unchanged : forall {W : Type} on_request (on_shutdown : N -> W -> W * list api) pol es s w,
  server_run on_request on_shutdown pol s w es =
  match log_server_run on_request on_shutdown pol s w es with Ret (s', w', l) => Ret (s', w', shown l) | UB => UB end.
Proof.
  intros. rewrite srun_erase. destruct (log_server_run on_request on_shutdown pol s w es) as [ [ [s' w'] l]|]; reflexivity.
Qed.

Lemma frame_warned : forall {W : Type} on_request s (w : W) c m s' w' l,
  sv_shutdown s = false -> typed_message m -> log_on_mbap on_request s w c m = Ret (s', w', l) ->
  warning (registry s) (mb_unit m) (mb_data m) (notes l) /\
  (notes l = [] <-> exists x r, In (OConsult x r) (shown l)).
Proof.
  intros W f s w c m s' w' l A B C.
  destruct (@mbap_warning W f (fun _ w0 => (w0, [])) s w c m s' w' l A B C) as (D & _ & E). split; assumption.
Qed.
