(** Concrete histories of the client channel. *)
From Verif Require Import Prelude Ser4 Messages Mbap SpecPdu SpecMbap Client SpecClient MbapFacts MbapLemmas BitFacts
  ClientFacts ClientLemmas ClientTx ClientShutdown ClientResponses ClientOutcomes.
From Coq Require Import Lia.

(** A handler that does nothing, and one that submits a request when its request
    times out. *)
Definition idle (i : nat) (w : unit) (r : expected (list N)) : unit * list capi := (w, []).

Definition read_call : call := {| k_unit := 7; k_msg := request_message (ReadCoils 1 2); k_timeout := 100 |}.
Definition bad_call : call := {| k_unit := 7; k_msg := request_message (ReadCoils 1 0); k_timeout := 100 |}.

Definition retry (i : nat) (w : unit) (r : expected (list N)) : unit * list capi :=
  match r with Error ETimeout => (w, [Submit read_call]) | _ => (w, []) end.

Lemma idle_no_shutdown : no_shutdown_handler idle.
Proof. intros i w r w' calls E. injection E as <- <-. auto. Qed.

Lemma retry_no_shutdown : no_shutdown_handler retry.
Proof.
  intros i w r w' calls E. unfold retry in E.
  destruct r as [d|[]]; injection E as <- <-; cbn; intuition discriminate.
Qed.

Lemma make_history {W} (handler : nat -> W -> expected (list N) -> W * list capi) pol es w0 s w os :
  Forall typed_cevent es -> client_run handler pol (client_init (repeat 0 260)) w0 es = Ret (s, w, os) ->
  history handler pol es s w os.
Proof. intros Ht E. exists (repeat 0 260), w0. split; [exact good_zero|]. auto. Qed.

Definition answer (tx : N) : list N := [0; tx; 0; 0; 0; 4; 7; 1; 1; 3].

Lemma answer_bytes tx : u8 tx -> bytes (answer tx).
Proof. intros H. unfold answer, bytes. repeat (constructor; [first [exact H|unfold u8; lia]|]). constructor. Qed.

(** ** Shutdown with a request outstanding *)
Definition abandoned_history : list cevent := [CApi (Submit read_call); CRun; CApi Shutdown; CRun].

Lemma abandoned : exists s os, history idle Truncate abandoned_history s tt os /\ quiescent s /\
  called_ids os = [0%nat] /\ completed_ids os = [].
Proof.
  do 2 eexists. split; [apply (make_history _ _ _ tt); [repeat constructor|vm_compute; reflexivity]|].
  split; [repeat split; reflexivity|]. split; reflexivity.
Qed.

Lemma told_refuted : ~ (forall (handler : nat -> unit -> expected (list N) -> unit * list capi) pol es s w os,
  no_shutdown_handler handler -> history handler pol es s w os -> quiescent s ->
  forall i, In i (called_ids os) -> In i (completed_ids os)).
Proof.
  intros H. destruct abandoned as (s & os & Hh & Hq & Hc & Hd).
  assert (Hx := H _ _ _ _ _ _ idle_no_shutdown Hh Hq 0%nat). rewrite Hc, Hd in Hx. apply Hx. cbn; auto.
Qed.

(** Whatever happens later. *)
Lemma shutdown_loses {W} (handler : nat -> W -> expected (list N) -> W * list capi) pol es s w os a b i k :
  history handler pol es s w os -> os = a ++ TcpShutdown :: b ->
  In (Called i k) os -> im_valid (k_msg k) = true -> ~ In i (completed_ids a) -> ~ In i (completed_ids os).
Proof.
  intros H Eo Hk Hv Ha Hin. rewrite Eo, completed_app in Hin. apply in_app_or in Hin.
  destruct Hin as [Hin|Hin]; [tauto|]. cbn [completed_ids flat_map app] in Hin. fold (completed_ids b) in Hin.
  apply in_completed in Hin. destruct Hin as (r & Hr).
  assert (Hq := silent_after_shutdown _ _ _ _ _ _ _ _ H Eo). rewrite Forall_forall in Hq.
  assert (Hqr := Hq _ Hr). cbn in Hqr. subst r.
  assert (Hro : In (Completed i (Error EMalformedRequest)) os) by (rewrite Eo; apply in_or_app; right; right; exact Hr).
  destruct (valid_results _ _ _ _ _ _ _ _ _ H Hk Hv Hro) as [(d & Hd)|[Hd|(m & Hd)]]; discriminate.
Qed.

(** ** A timer that expires just before the response *)
Definition race_history : list cevent :=
  [CApi (Submit read_call); CApi (Submit read_call); CRun; CRun; CExpire 0; CReceive (answer 0); CFire 0].

Lemma race : exists s os, history idle Truncate race_history s tt os /\
  os = [Called 0 read_call; Called 1 read_call;
        Sent 0 7 0 (map Some [0; 0; 0; 0; 0; 6; 7; 1; 0; 1; 0; 2]); Armed 0 0 100;
        Completed 0 (Value [1; 1; 3]);
        Sent 1 7 1 (map Some [0; 1; 0; 0; 0; 6; 7; 1; 0; 1; 0; 2]); Armed 1 1 100;
        Completed 1 (Error ETimeout)].
Proof.
  do 2 eexists. split.
  - apply (make_history _ _ _ tt); [|vm_compute; reflexivity].
    repeat constructor; try apply answer_bytes; unfold u8; lia.
  - reflexivity.
Qed.

Lemma own_timer_refuted : ~ (forall (handler : nat -> unit -> expected (list N) -> unit * list capi) pol es s w os i,
  history handler pol es s w os -> In (Completed i (Error ETimeout)) os ->
  exists t d, In (Armed i t d) os /\ In (CExpire t) es).
Proof.
  intros H. destruct race as (s & os & Hh & Ho).
  destruct (H _ _ _ _ _ _ 1%nat Hh) as (t & d & HA & HE).
  - rewrite Ho. cbn. auto 10.
  - rewrite Ho in HA. cbn in HA. unfold race_history in HE. cbn in HE.
    repeat (destruct HA as [HA|HA]; [try discriminate HA; injection HA as <- <-|]); try tauto.
    repeat (destruct HE as [HE|HE]; [discriminate HE|]). exact HE.
Qed.
