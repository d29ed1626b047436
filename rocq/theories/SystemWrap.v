(** Transaction identifiers come round after 65536 requests: an answer that is late
    enough is then taken for that to another request. *)
From Verif Require Import Prelude Ser4 Messages Mbap Client Server Database System.
From Verif Require Import SpecPdu SpecMbap SpecClient SpecServer SpecDb SpecSystem.
From Verif Require Import SystemFacts SystemLemmas ClientCases SystemCases.
From Coq Require Import Lia.

Definition read5 : Client.call := session_call 9 (ReadHoldingRegisters 5 1) 1000.
Definition read6 : Client.call := session_call 9 (ReadHoldingRegisters 6 1) 1000.

(** Request [k] is made, sent, and times out. *)
Definition times_out (k : nat) : list yevent := [YCall (Submit read6); YRun; YExpire k; YFire k].
Fixpoint time_outs (k n : nat) : list yevent :=
  match n with O => [] | S n' => times_out k ++ time_outs (S k) n' end.

(** A client that has had [k] requests time out; [t] is the next identifier. *)
Definition resting (p : pstate) (t : N) (k : nat) : client :=
  {| cc_shutdown := false; cc_parser := p; cc_pending := []; cc_current := None; cc_timer := None;
     cc_next_tx := t; cc_queue := []; cc_armed := []; cc_expired := []; cc_next_timer := k; cc_calls := k |}.

Lemma call_step pol p t k c : im_valid (k_msg c) = true ->
  client_step idle pol (resting p t k) tt (CApi (Submit c)) = Ret (with_queue (resting p t k) [DoSend k c] (S k), tt, [Called k c]).
Proof. intros V. unfold client_step, capi_call. rewrite V. reflexivity. Qed.

Definition request_of (t : N) (k : nat) (c : Client.call) : prequest :=
  {| pr_id := k; pr_unit := k_unit c; pr_tx := t; pr_msg := k_msg c; pr_timeout := k_timeout c |}.

Definition sending (p : pstate) (t : N) (k : nat) (c : Client.call) (armed expired : list nat) : client :=
  {| cc_shutdown := false; cc_parser := p; cc_pending := []; cc_current := Some (request_of t k c); cc_timer := Some k;
     cc_next_tx := to_u16 (t + 1); cc_queue := []; cc_armed := armed; cc_expired := expired; cc_next_timer := S k; cc_calls := S k |}.

Lemma send_step pol p t k c : client_step idle pol (with_queue (resting p t k) [DoSend k c] (S k)) tt CRun =
  Ret (sending p t k c [k] [], tt, [Sent k (k_unit c) t (mbap_build 260 (k_unit c) t (k_msg c)); Armed k k (k_timeout c)]).
Proof. reflexivity. Qed.

Lemma expire_step pol p t k c : client_step idle pol (sending p t k c [k] []) tt (CExpire k) = Ret (sending p t k c [] [k], tt, []).
Proof. unfold client_step, sending. cbn [cc_armed existsb]. rewrite Nat.eqb_refl. cbn [orb filter]. rewrite Nat.eqb_refl. reflexivity. Qed.

Lemma fire_step pol p t k c : client_step idle pol (sending p t k c [] [k]) tt (CFire k) =
  Ret (resting p (to_u16 (t + 1)) (S k), tt, [Completed k (Error ETimeout)]).
Proof. unfold client_step, sending. cbn [cc_expired existsb]. rewrite Nat.eqb_refl. cbn [orb filter]. rewrite Nat.eqb_refl. reflexivity. Qed.

Lemma one_times_out pol p t k c : im_valid (k_msg c) = true ->
  client_run idle pol (resting p t k) tt [CApi (Submit c); CRun; CExpire k; CFire k] =
  Ret (resting p (to_u16 (t + 1)) (S k), tt,
       [Called k c; Sent k (k_unit c) t (mbap_build 260 (k_unit c) t (k_msg c)); Armed k k (k_timeout c); Completed k (Error ETimeout)]).
Proof.
  intros V. cbn [client_run]. rewrite (call_step _ _ _ _ _ V). cbn [obind]. rewrite send_step. cbn [obind]. rewrite expire_step. cbn [obind]. rewrite fire_step. reflexivity.
Qed.

Lemma next_identifier k : to_u16 (N.of_nat k mod 65536 + 1) = N.of_nat (S k) mod 65536.
Proof. unfold to_u16. rewrite N.add_mod_idemp_l by lia. f_equal. lia. Qed.

Definition waits (k : nat) : client := resting (mbap_new zeros) (N.of_nat k mod 65536) k.

Definition timed_out (k : nat) : list coutput :=
  [Called k read6; Sent k 9 (N.of_nat k mod 65536) (mbap_build 260 9 (N.of_nat k mod 65536) (k_msg read6)); Armed k k 1000; Completed k (Error ETimeout)].

Lemma times_out_run k : client_run idle Truncate (waits k) tt [CApi (Submit read6); CRun; CExpire k; CFire k] = Ret (waits (S k), tt, timed_out k).
Proof. unfold waits. rewrite <- next_identifier. exact (one_times_out Truncate _ _ k read6 eq_refl). Qed.

Lemma client_events (y : system unit) c k s os : client_run idle Truncate (y_client y) tt [CApi (Submit c); CRun; CExpire k; CFire k] = Ret (s, tt, os) ->
  y_user y = tt ->
  exists y', system_run idle Truncate y [YCall (Submit c); YRun; YExpire k; YFire k] = Ret (y', map YC os) /\
    y_client y' = s /\ y_user y' = tt /\ y_conn y' = y_conn y /\ y_down y' = y_down y.
Proof.
  intros R U. cbn [system_run system_step]. unfold on_client. rewrite U. cbn [client_run] in R.
  destruct (client_step idle Truncate (y_client y) tt (CApi (Submit c))) as [[[s1 []] o1]|]; cbn [obind y_client y_user y_conn y_down] in *; [|discriminate R].
  destruct (client_step idle Truncate s1 tt CRun) as [[[s2 []] o2]|]; cbn [obind y_client y_user y_conn y_down] in *; [|discriminate R].
  destruct (client_step idle Truncate s2 tt (CExpire k)) as [[[s3 []] o3]|]; cbn [obind y_client y_user y_conn y_down] in *; [|discriminate R].
  destruct (client_step idle Truncate s3 tt (CFire k)) as [[[s4 []] o4]|]; cbn [obind y_client y_user y_conn y_down] in *; [|discriminate R].
  injection R as <- <-. eexists. split; [rewrite !map_app; reflexivity|]. repeat split; reflexivity.
Qed.

Lemma system_run_app {W} (h : nat -> W -> expected (list N) -> W * list capi) pol es1 : forall y es2, system_run h pol y (es1 ++ es2) =
  let! (y, o) := system_run h pol y es1 in let! (y, o') := system_run h pol y es2 in Ret (y, o ++ o').
Proof.
  induction es1 as [|e es1 IH]; intros y es2; cbn [app system_run obind].
  - destruct (system_run h pol y es2) as [[y' o']|]; reflexivity.
  - destruct (system_step h pol y e) as [[y1 o1]|]; cbn [obind]; [|reflexivity]. rewrite IH. destruct (system_run h pol y1 es1) as [[y2 o2]|]; cbn [obind]; [|reflexivity].
    destruct (system_run h pol y2 es2) as [[y3 o3]|]; cbn [obind]; [|reflexivity]. rewrite app_assoc. reflexivity.
Qed.

Lemma time_outs_run n : forall k (y : system unit), y_client y = waits k -> y_user y = tt ->
  exists y' os, system_run idle Truncate y (time_outs k n) = Ret (y', map YC os) /\ y_client y' = waits (n + k) /\ y_user y' = tt /\ y_conn y' = y_conn y /\ y_down y' = y_down y /\
    Forall (fun o => match o with Called i _ | Completed i _ => (i < n + k)%nat | _ => True end) os.
Proof.
  induction n as [|n IH]; intros k y C U; cbn [time_outs].
  - exists y, []. repeat split; auto.
  - destruct (client_events y read6 k (waits (S k)) (timed_out k)) as (y1 & R1 & C1 & U1 & N1 & D1); [rewrite C; apply times_out_run|exact U|]. destruct (IH (S k) y1 C1 U1) as (y2 & os & R2 & C2 & U2 & N2 & D2 & F).
    exists y2, (timed_out k ++ os). rewrite system_run_app. fold (times_out k) in R1. rewrite R1. cbn [obind]. rewrite R2. cbn [obind]. rewrite map_app. replace (S n + k)%nat with (n + S k)%nat by lia.
    split; [reflexivity|]. split; [exact C2|]. split; [exact U2|]. split; [congruence|]. split; [congruence|]. apply Forall_app. split; [|exact F].
    unfold timed_out. repeat constructor; lia.
Qed.

(** The first answer is late. *)
Definition late_answer : list N := frame_bytes 0 9 [3; 2; 0; 0].
Definition slow_start : list yevent := [YCall (Submit read5); YRun; YUp 0 12; YExpire 0; YFire 0].

Definition looked_at (r : outcome (system unit * list youtput)) :=
  match r with
  | Ret (y, os) => Some (y_client y, y_user y, y_conn y, y_down y 0, called_ids (client_outputs os), db_calls os)
  | UB => None
  end.

Lemma slow_started : looked_at (system_run idle Truncate (system_init [9] three_registers zeros zeros tt) slow_start) =
  Some (waits 1, tt, 0, late_answer, [0%nat], [CRequest (ReadHoldingRegisters 5 1)]).
Proof. vm_compute. reflexivity. Qed.

Lemma looked r c u n d i b : looked_at r = Some (c, u, n, d, i, b) ->
  exists y os, r = Ret (y, os) /\ y_client y = c /\ y_user y = u /\ y_conn y = n /\ y_down y 0 = d /\ called_ids (client_outputs os) = i /\ db_calls os = b.
Proof. destruct r as [[y os]|]; intros L; [|discriminate L]. injection L as <- <- <- <- <- <-. exists y, os. repeat split. Qed.

Lemma late_parsed : mbap_parse Truncate (mbap_new zeros) late_answer =
  Ret (match mbap_parse Truncate (mbap_new zeros) late_answer with Ret (p, _) => p | UB => mbap_new zeros end,
       [{| mb_unit := 9; mb_tx := 0; mb_data := [3; 2; 0; 0] |}]).
Proof. vm_compute. reflexivity. Qed.

Lemma receive_step pol p t k c data p' m : mbap_parse pol p data = Ret (p', [m]) -> mb_tx m = t -> mb_unit m = k_unit c ->
  exists s, client_step idle pol (sending p t k c [k] []) tt (CReceive data) = Ret (s, tt, [Completed k (Value (mb_data m))]).
Proof.
  intros P T U. unfold client_step, on_receive. cbn [sending cc_shutdown cc_parser]. rewrite P. cbn [obind on_responses].
  unfold on_response. cbn [with_parser cc_shutdown cc_current sending request_of pr_tx pr_unit]. rewrite T, U, !N.eqb_refl. cbn [andb].
  eexists. cbn [call_handler idle capi_calls pr_id app]. reflexivity.
Qed.

Lemma last_run (y : system unit) p t k c n data p' m : y_client y = resting p t k -> y_user y = tt -> im_valid (k_msg c) = true ->
  firstn n (y_down y (y_conn y)) = data -> mbap_parse Truncate p data = Ret (p', [m]) -> mb_tx m = t -> mb_unit m = k_unit c ->
  exists y', system_run idle Truncate y [YCall (Submit c); YRun; YDown n] =
    Ret (y', map YC [Called k c; Sent k (k_unit c) t (mbap_build 260 (k_unit c) t (k_msg c)); Armed k k (k_timeout c); Completed k (Value (mb_data m))]).
Proof.
  intros C U V D P T M. destruct (receive_step Truncate p t k c data p' m P T M) as (s & R). cbn [system_run system_step]. unfold on_client at 1. rewrite C, U, (call_step _ _ _ _ _ V).
  cbn [obind y_client y_user y_conn y_down y_server y_db]. unfold on_client at 1. cbn [y_client y_user y_conn y_down y_server y_db]. rewrite send_step.
  cbn [obind y_client y_user y_conn y_down y_server y_db]. unfold on_client. cbn [y_client y_user y_conn y_down y_server y_db]. rewrite D, R. cbn [obind]. eexists. reflexivity.
Qed.

Definition come_round (n : nat) : list yevent := slow_start ++ time_outs 1 n ++ [YCall (Submit read6); YRun; YDown 11].

Lemma read5_session : by_session (Submit read5).
Proof. typed_session. cbn. split; unfold u16; lia. Qed.
Lemma read6_session : by_session (Submit read6).
Proof. typed_session. cbn. split; unfold u16; lia. Qed.

Lemma time_outs_typed n : forall k, Forall typed_yevent (time_outs k n).
Proof.
  induction n as [|n IH]; intros k; cbn [time_outs]; [constructor|]. apply Forall_app. split; [|apply IH].
  repeat (apply Forall_cons; [first [exact read6_session|exact I]|]). apply Forall_nil.
Qed.

Lemma come_round_typed n : Forall typed_yevent (come_round n).
Proof.
  unfold come_round. apply Forall_app. split; [|apply Forall_app; split; [apply time_outs_typed|]]; repeat (apply Forall_cons; [first [exact read5_session|exact read6_session|exact I]|]);
    apply Forall_nil.
Qed.

Lemma no_calls os : db_calls (map YC os) = [].
Proof. unfold db_calls. induction os as [|o os IH]; [reflexivity|]. exact IH. Qed.

Lemma called_in i k os : In (YC (Called i k)) os -> In i (called_ids (client_outputs os)).
Proof.
  intros H. unfold called_ids, client_outputs. apply in_flat_map. exists (Called i k). split; [|left; reflexivity].
  apply in_flat_map. exists (YC (Called i k)). split; [exact H|left; reflexivity].
Qed.

Lemma read6_not_read5 u t : read6 <> session_call u (ReadHoldingRegisters 5 1) t.
Proof.
  intros E. apply (f_equal (fun c => build_into 260 (k_msg c))) in E. unfold session_call, read6 in E. cbn [k_msg] in E.
  vm_compute in E. discriminate E.
Qed.

Lemma wrong_answer n : N.of_nat n = 65535 -> exists y a x b, happens idle Truncate [9] three_registers (come_round n) y (a ++ YC (Completed (n + 1) (Value x)) :: b) /\
  In (YC (Called (n + 1) read6)) a /\ (forall k, In (YC (Called (n + 1) k)) a -> k = read6) /\
  db_calls a = [CRequest (ReadHoldingRegisters 5 1)].
Proof.
  intros Hn. destruct (looked _ _ _ _ _ _ _ slow_started) as (y0 & os0 & R0 & C0 & U0 & N0 & D0 & I0 & B0).
  destruct (time_outs_run n 1 y0 C0 U0) as (y1 & os1 & R1 & C1 & U1 & N1 & D1 & F1).
  assert (Hk : N.of_nat (n + 1) mod 65536 = 0) by (replace (N.of_nat (n + 1)) with 65536 by lia; reflexivity).
  unfold waits in C1. rewrite Hk in C1.
  assert (D2 : firstn 11 (y_down y1 (y_conn y1)) = late_answer) by (rewrite D1, N1, N0, D0; reflexivity).
  destruct (last_run y1 _ _ _ read6 11 late_answer _ _ C1 U1 eq_refl D2 late_parsed eq_refl eq_refl) as (y2 & R2).
  assert (K0 : (n + 1 <> 0)%nat) by lia. clear Hk Hn. remember (n + 1)%nat as k eqn:Ek.
  exists y2, (os0 ++ map YC os1 ++ map YC [Called k read6; Sent k 9 0 (mbap_build 260 9 0 (k_msg read6)); Armed k k 1000]), [3; 2; 0; 0], [].
  split; [|split; [|split]].
  - exists zeros, zeros, tt. split; [exact zeros_good|]. split; [exact zeros_good|]. split; [exact three_reachable|]. split; [apply come_round_typed|]. split; [exact idle_session|].
    unfold come_round. rewrite system_run_app, R0. cbn [obind]. rewrite system_run_app, R1. cbn [obind]. rewrite R2. cbn [obind]. rewrite <- !app_assoc. reflexivity.
  - rewrite !in_app_iff. right. right. left. reflexivity.
  - intros c J. apply in_app_iff in J as [J|J]; [apply called_in in J; rewrite I0 in J; destruct J as [J|[]]; lia|].
    rewrite <- map_app in J. apply in_map_iff in J as (o & E & J). injection E as ->. apply in_app_iff in J as [J|J].
    + rewrite Forall_forall in F1. apply F1 in J. lia.
    + destruct J as [J|[J|[J|[]]]]; [injection J as ->; reflexivity|discriminate J|discriminate J].
  - unfold db_calls. rewrite !flat_map_app. change (flat_map _ os0) with (db_calls os0). rewrite B0. change (flat_map _ (map YC os1)) with (db_calls (map YC os1)). rewrite no_calls. reflexivity.
Qed.
