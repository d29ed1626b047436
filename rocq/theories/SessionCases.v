(** Concrete histories of sessions. *)
From Verif Require Import Prelude Ser4 Messages Mbap SpecPdu SpecMbap Client SpecClient Scheduled SpecScheduled SessionCall Session SpecSession
  MbapFacts SessionLemmas SystemCases.
From Coq Require Import Lia.

Definition quiet_user (s : source) (w : unit) (v : expected response) : unit * list kapi := (w, []).

Definition play (es : list kevent) : stack unit * list koutput :=
  match stack_run quiet_user AllOrNothing (stack_init zeros tt) es with
  | Ret x => x
  | UB => (stack_init zeros tt, [])
  end.

Lemma played es : Forall typed_kevent es -> stack_history quiet_user AllOrNothing es (fst (play es)) (snd (play es)).
Proof.
  intros He. destruct (never_stuck quiet_user AllOrNothing zeros tt es zeros_good He) as (k & os & E & _).
  exists zeros, tt. split; [exact zeros_good|]. split; [exact He|]. unfold play. rewrite E. reflexivity.
Qed.

Lemma cut {A} (x : A) n : forall l, nth_error l n = Some x -> l = firstn n l ++ x :: skipn (S n) l.
Proof.
  induction n as [|n IH]; intros [|y l] H; try discriminate; cbn in H.
  - inversion H. reflexivity.
  - cbn. f_equal. apply IH. exact H.
Qed.

Lemma cut2 {A} (x y : A) n p l : nth_error l n = Some x -> nth_error (skipn (S n) l) p = Some y ->
  l = firstn n l ++ x :: firstn p (skipn (S n) l) ++ y :: skipn (S p) (skipn (S n) l).
Proof. intros H1 H2. rewrite <- (cut y p _ H2). apply cut. exact H1. Qed.

Lemma absent {A} (f : A -> bool) x l : existsb f l = false -> f x = true -> ~ In x l.
Proof. intros H Hx Hin. assert (existsb f l = true) by (apply existsb_exists; eauto). congruence. Qed.

Lemma present {A} (x : A) n l : nth_error l n = Some x -> In x l.
Proof. apply nth_error_In. Qed.

Definition starts_poll (j : nat) (o : koutput) : bool :=
  match o with Asked (OnSchedule j' Start) => Nat.eqb j' j | _ => false end.
Definition closes (x : nat) (o : koutput) : bool :=
  match o with Asked (CloseSession x') => Nat.eqb x' x | _ => false end.
Definition tcp_down (o : koutput) : bool := match o with Channel TcpShutdown => true | _ => false end.
Definition completes (i : nat) (o : koutput) : bool := match o with Channel (Completed i' _) => Nat.eqb i' i | _ => false end.

Ltac typed_events := repeat (apply Forall_cons; [cbn; first [exact Logic.I | repeat constructor; unfold u8; lia]|]); apply Forall_nil.

Definition read1 : request := ReadHoldingRegisters 5 1.
Definition answer1 : expected response := Value (HoldingRegistersRead [(5, 263)]).
Definition frame (tx : N) : list N := [0; tx; 0; 0; 0; 5; 9; 3; 2; 1; 7].

(** What is shown without the calls of the channel. *)
Definition visible (os : list koutput) : list koutput :=
  filter (fun o => match o with Channel (Called _ _) => false | _ => true end) os.

(** A one-time request. *)
Definition once : list kevent :=
  [KApi (Open 9 1000); KApi (Send 0 read1 None); KChannel CRun; KChannel (CReceive (frame 0))].
Lemma once_typed : Forall typed_kevent once.
Proof. typed_events. Qed.
Lemma once_shown : visible (snd (play once)) =
  [Asked (Open 9 1000); Opened 0 9 1000; Asked (Send 0 read1 None); Issued 0 0 read1 None;
   Channel (Sent 0 9 0 (map Some [0; 0; 0; 0; 0; 6; 9; 3; 0; 5; 0; 1])); Channel (Armed 0 0 1000); Channel (Completed 0 (Value [3; 2; 1; 7])); Answered 0 answer1].
Proof. vm_compute. reflexivity. Qed.

(** A scheduled request with timeout 7 and period 50. *)
Definition twice : list kevent :=
  [KApi (Open 9 1000); KApi (Schedule 0 read1 (Some 7) 50); KRun; KRun; KChannel CRun; KChannel (CReceive (frame 0));
   KExpire 0 0; KFire 0 0; KChannel CRun].
Lemma twice_typed : Forall typed_kevent twice.
Proof. typed_events. Qed.
Lemma twice_shown : visible (snd (play twice)) =
  [Asked (Open 9 1000); Opened 0 9 1000; Asked (Schedule 0 read1 (Some 7) 50); Scheduled 0 0 read1 (Some 7) 50;
   Polled 0 Started; Polled 0 (Request 0); Repeated 0 0 0;
   Channel (Sent 0 9 0 (map Some [0; 0; 0; 0; 0; 6; 9; 3; 0; 5; 0; 1])); Channel (Armed 0 0 7); Channel (Completed 0 (Value [3; 2; 1; 7]));
   Polled 0 (Response 0 answer1); Polled 0 (Wait 0 50); Polled 0 (Request 1); Repeated 1 0 1;
   Channel (Sent 1 9 1 (map Some [0; 1; 0; 0; 0; 6; 9; 3; 0; 5; 0; 1])); Channel (Armed 1 1 7)].
Proof. vm_compute. reflexivity. Qed.

(** The session is shut down: the scheduled request stops. *)
Definition stopping : list kevent :=
  [KApi (Open 9 1000); KApi (Schedule 0 read1 None 50); KRun; KRun; KApi (CloseSession 0); KRun; KRun].
Lemma stopping_typed : Forall typed_kevent stopping.
Proof. typed_events. Qed.

(** It is started again, and the session shut down again. *)
Definition restarting : list kevent := stopping ++ [KApi (OnSchedule 0 Start); KRun; KApi (CloseSession 0); KRun].
Lemma restarting_typed : Forall typed_kevent restarting.
Proof. typed_events. Qed.

Lemma second_close_refuted :
  ~ (forall (W : Type) (user : source -> W -> expected response -> W * list kapi) pol es k os j x r t f a m b, stack_history user pol es k os ->
       os = a ++ Scheduled j x r t f :: m ++ Asked (CloseSession x) :: b -> ~ In (Asked (OnSchedule j Start)) b ->
       ks_queue (st_rest k) = [] -> is_running k j = false).
Proof.
  intros H. assert (E : is_running (fst (play restarting)) 0 = true) by (vm_compute; reflexivity).
  rewrite (H _ _ _ _ _ _ 0%nat 0%nat read1 None 50 (firstn 3 (snd (play restarting)))
    (firstn 12 (skipn 4 (snd (play restarting)))) (skipn 13 (skipn 4 (snd (play restarting)))) (played _ restarting_typed)) in E; [discriminate| | |].
  - apply cut2; vm_compute; reflexivity.
  - apply (absent (starts_poll 0)); vm_compute; reflexivity.
  - vm_compute. reflexivity.
Qed.

(** A request is under way when the session is shut down; the response comes later. *)
Definition pending_request : list kevent :=
  [KApi (Open 9 1000); KApi (Send 0 read1 None); KChannel CRun; KApi (CloseSession 0); KRun].
Lemma pending_request_typed : Forall typed_kevent pending_request.
Proof. typed_events. Qed.

Lemma close_cancels_refuted :
  ~ (forall (W : Type) (user : source -> W -> expected response -> W * list kapi) pol es k os x e k' o i r t v, stack_history user pol es k os ->
       In (Asked (CloseSession x)) os -> ks_queue (st_rest k) = [] -> In (Issued i x r t) os ->
       typed_kevent e -> stack_step user pol k e = Ret (k', o) -> ~ In (Answered i (Value v)) o).
Proof.
  intros H. set (e := KChannel (CReceive (frame 0))). set (k := fst (play pending_request)).
  assert (He : typed_kevent e) by (cbn; repeat constructor; unfold u8; lia).
  destruct (stack_step quiet_user AllOrNothing k e) as [[k' o]|] eqn:E.
  - refine (H _ _ _ _ _ _ 0%nat _ _ _ 0%nat read1 None (HoldingRegistersRead [(5, 263)]) (played _ pending_request_typed) _ _ _ He E _).
    + apply (present _ 7). vm_compute. reflexivity.
    + vm_compute. reflexivity.
    + apply (present _ 4). vm_compute. reflexivity.
    + assert (F : match stack_step quiet_user AllOrNothing k e with Ret (_, o) => nth_error o 1 | UB => None end = Some (Answered 0 answer1)) by (vm_compute; reflexivity).
      rewrite E in F. exact (present _ _ _ F).
  - assert (F : match stack_step quiet_user AllOrNothing k e with Ret _ => true | UB => false end = true) by (vm_compute; reflexivity).
    rewrite E in F. discriminate.
Qed.

(** The channel is shut down while a request is scheduled. *)
Definition channel_down : list kevent :=
  [KApi (Open 9 1000); KApi (Schedule 0 read1 None 50); KRun; KRun; KApi CloseChannel; KChannel CRun; KChannel CRun; KRun; KRun].
Lemma channel_down_typed : Forall typed_kevent channel_down.
Proof. typed_events. Qed.

(** A request is scheduled after the shutdown of the channel. *)
Definition too_late : list kevent :=
  [KApi (Open 9 1000); KApi CloseChannel; KChannel CRun; KRun; KApi (Schedule 0 read1 None 50); KRun; KRun; KChannel CRun].
Lemma too_late_typed : Forall typed_kevent too_late.
Proof. typed_events. Qed.

Lemma too_late_resting : resting (fst (play too_late)).
Proof.
  split; [split; [|split]; vm_compute; reflexivity|]. split; [vm_compute; reflexivity|].
  assert (E : map (fun p => (sr_armed (po_sched p), sr_expired (po_sched p))) (ks_polls (st_rest (fst (play too_late)))) = [([], [])]) by (vm_compute; reflexivity).
  destruct (ks_polls (st_rest (fst (play too_late)))) as [|p [|q l]]; try discriminate. injection E as E1 E2.
  apply Forall_cons; [split; [exact E1|exact E2]|apply Forall_nil].
Qed.

Lemma no_polling_after_shutdown_refuted :
  ~ (forall (W : Type) (user : source -> W -> expected response -> W * list kapi) pol es k os j, stack_history user pol es k os ->
       In (Channel TcpShutdown) os -> ks_queue (st_rest k) = [] -> is_running k j = false).
Proof.
  intros H. assert (E : is_running (fst (play too_late)) 0 = true) by (vm_compute; reflexivity).
  rewrite (H _ _ _ _ _ _ 0%nat (played _ too_late_typed)) in E; [discriminate| |].
  - apply (present _ 3). vm_compute. reflexivity.
  - vm_compute. reflexivity.
Qed.

(** ... and is running for ever with nothing to wait for. *)
Lemma polling_lives_refuted :
  ~ (forall (W : Type) (user : source -> W -> expected response -> W * list kapi) pol es k os j, stack_history user pol es k os ->
       resting k -> is_running k j = false).
Proof.
  intros H. assert (E : is_running (fst (play too_late)) 0 = true) by (vm_compute; reflexivity).
  rewrite (H _ _ _ _ _ _ 0%nat (played _ too_late_typed) too_late_resting) in E. discriminate.
Qed.

(** A shut down session still sends. *)
Lemma sending_refuted :
  ~ (forall (W : Type) (user : source -> W -> expected response -> W * list kapi) pol es k os x r t k' o i, stack_history user pol es k os ->
       In (Asked (CloseSession x)) os -> ks_queue (st_rest k) = [] ->
       stack_step user pol k (KApi (Send x r t)) = Ret (k', o) -> ~ In (Issued i x r t) o).
Proof.
  intros H. set (k := fst (play stopping)).
  destruct (stack_step quiet_user AllOrNothing k (KApi (Send 0 read1 None))) as [[k' o]|] eqn:E.
  - refine (H _ _ _ _ _ _ 0%nat read1 None _ _ 1%nat (played _ stopping_typed) _ _ E _).
    + apply (present _ 8). vm_compute. reflexivity.
    + vm_compute. reflexivity.
    + assert (F : match stack_step quiet_user AllOrNothing k (KApi (Send 0 read1 None)) with Ret (_, o) => nth_error o 2 | UB => None end = Some (Issued 1 0 read1 None)) by (vm_compute; reflexivity).
      rewrite E in F. exact (present _ _ _ F).
  - assert (F : match stack_step quiet_user AllOrNothing k (KApi (Send 0 read1 None)) with Ret _ => true | UB => false end = true) by (vm_compute; reflexivity).
    rewrite E in F. discriminate.
Qed.

(** A user that counts what it is told, and asks again twice. *)
Definition busy_user (s : source) (w : nat) (v : expected response) : nat * list kapi :=
  (S w, if Nat.ltb w 2 then [Send 0 read1 None] else [CloseSession 0; CloseChannel]).

Definition busy_play (es : list kevent) : nat * list koutput :=
  match stack_run busy_user AllOrNothing (stack_init zeros O) es with
  | Ret (k, os) => (ks_user (st_rest k), os)
  | UB => (O, [])
  end.

Definition busy : list kevent :=
  [KApi (Open 9 1000); KApi (Send 0 read1 None); KChannel CRun; KChannel (CReceive (frame 0)); KChannel CRun; KChannel (CReceive (frame 1));
   KChannel CRun; KChannel (CReceive (frame 2)); KChannel CRun; KApi CloseChannel; KChannel CRun].
Lemma busy_typed : Forall typed_kevent busy.
Proof. typed_events. Qed.

(** A scheduled request is stopped, given another period, and started again. *)
Definition changing : list kevent :=
  [KApi (Open 9 1000); KApi (Schedule 0 read1 None 50); KRun; KRun; KApi (OnSchedule 0 Stop); KApi (OnSchedule 0 (SetFrequency 70)); KRun;
   KApi (OnSchedule 0 Start); KRun; KRun].
Lemma changing_typed : Forall typed_kevent changing.
Proof. typed_events. Qed.
Lemma changing_shown : stack_history quiet_user AllOrNothing changing (fst (play changing)) (snd (play changing)) /\
  ks_queue (st_rest (fst (play changing))) = [] /\ In (Scheduled 0 0 read1 None 50) (snd (play changing)) /\
  meant 0 (snd (play changing)) = (true, 70) /\ meant 0 (snd (play stopping)) = (false, 50).
Proof.
  split; [exact (played _ changing_typed)|]. split; [vm_compute; reflexivity|].
  split; [apply (present _ 3); vm_compute; reflexivity|]. split; vm_compute; reflexivity.
Qed.
