(** Endpoints and loggers. *)
From Verif Require Import Prelude Config.
From Coq Require Import DecimalString DecimalN Lia.

Theorem endpoints_equal : forall a b, ep_eq a b = true <-> a = b.
Proof.
  intros [h p] [h' p']. unfold ep_eq. cbn [ep_host ep_port]. rewrite andb_true_iff, String.eqb_eq, N.eqb_eq. split; [intros (-> & ->); reflexivity|].
  intros E. injection E as <- <-. split; reflexivity.
Qed.
Theorem endpoints_differ : forall a b, ep_ne a b = true <-> a <> b.
Proof.
  intros a b. unfold ep_ne. rewrite negb_true_iff. destruct (ep_eq a b) eqn:E.
  - apply endpoints_equal in E. split; [discriminate|contradiction].
  - split; [|reflexivity]. intros _ Q. apply endpoints_equal in Q. congruence.
Qed.

Theorem query_reads_back : forall e, fst (query e) = ep_host e /\ option_map N.of_uint (NilEmpty.uint_of_string (snd (query e))) = Some (ep_port e).
Proof.
  intros e. unfold query, decimal. cbn [fst snd]. rewrite NilEmpty.usu. cbn [option_map]. rewrite DecimalN.Unsigned.of_to. split; reflexivity.
Qed.

Theorem listens_at : forall e, ep_port e < 65536 -> listen_port e = ep_port e.
Proof. intros e L. unfold listen_port, to_u16. apply N.mod_small. exact L. Qed.

Theorem port_truncated : exists a b, ep_port a < 2 ^ 32 /\ ep_port b < 2 ^ 32 /\ ep_eq a b = false /\ ep_host a = ep_host b /\ listen_port a = listen_port b /\ listen_port a <> ep_port a.
Proof. exists {| ep_host := "0.0.0.0"; ep_port := 66038 |}, {| ep_host := "0.0.0.0"; ep_port := 502 |}. vm_compute. repeat split; congruence. Qed.

Theorem levels_kept : forall v, v < 6 -> to_spdlog_level v = v.
Proof.
  intros v L. assert (v = 0 \/ v = 1 \/ v = 2 \/ v = 3 \/ v = 4 \/ v = 5) as Q by lia. decompose [or] Q; subst; reflexivity.
Qed.

Theorem channel_logs : forall {S : Type} (base : logger S) name level severity, level < 6 ->
  let l := if level <=? severity then lg_sinks base else [] in
  emits (connection_logger base name level) severity = l /\ emits (channel_logger base name level) severity = l /\ emits (server_logger base name level) severity = l.
Proof.
  intros S0 base name level severity L. unfold emits, connection_logger, channel_logger, server_logger, clone_at. cbn [lg_level lg_sinks]. rewrite (levels_kept _ L). repeat split.
Qed.

Theorem session_logs_nothing : exists (base : logger nat) level severity, level < 6 /\ level <= severity /\
  emits (channel_logger base "c" level) severity = lg_sinks base /\ lg_sinks base <> [] /\ emits (session_logger (channel_logger base "c" level)) severity = [].
Proof. exists {| lg_name := "m"; lg_level := 2; lg_sinks := [0%nat] |}, 0, 0. vm_compute. repeat split; congruence. Qed.

Theorem session_logs : forall {S : Type} (base : logger S) name level severity, level = 2 \/ 2 <= severity /\ level <= severity \/ severity < 2 /\ severity < level -> level < 6 ->
  emits (session_logger (channel_logger base name level)) severity = emits (channel_logger base name level) severity.
Proof.
  intros S0 base name level severity K L. unfold emits, session_logger, clone, channel_logger, clone_at. cbn [lg_level lg_sinks]. rewrite (levels_kept _ L).
  destruct K as [->|[(A & B)|(A & B)]]; [reflexivity| |].
  - apply N.leb_le in A, B. rewrite A, B. reflexivity.
  - apply N.leb_gt in A, B. rewrite A, B. reflexivity.
Qed.

Theorem null_logs : forall {S : Type} name k level (severity : N), @emits S (null_logger name) severity = [] /\ emits (clone_at (@null_logger S name) k level) severity = [].
Proof. intros S0 name k level severity. unfold emits, null_logger, clone_at. cbn [lg_level lg_sinks]. split; destruct (_ <=? severity); reflexivity. Qed.

Theorem endpoints_compare : forall a b, (ep_eq a b = true <-> a = b) /\ (ep_ne a b = true <-> a <> b).
Proof. intros a b. split; [apply endpoints_equal|apply endpoints_differ]. Qed.

Theorem custom_logs : forall {S : Type} (l : logger S) level severity, level < 6 ->
  emits (custom_logger l level) severity = (if level <=? severity then lg_sinks l else []) /\ lg_name (custom_logger l level) = lg_name l.
Proof.
  intros S0 l level severity L. unfold emits, custom_logger. cbn [lg_level lg_sinks lg_name]. rewrite (levels_kept _ L). split; reflexivity.
Qed.

Theorem other_levels : forall {S : Type} (l : logger S) level severity, 6 <= level ->
  emits (custom_logger l level) severity = emits (custom_logger l 1) severity.
Proof.
  intros S0 l level severity L. unfold emits, custom_logger. cbn [lg_level lg_sinks].
  replace (to_spdlog_level level) with (to_spdlog_level 1); [reflexivity|].
  destruct level as [|p]; [lia|]. unfold to_spdlog_level.
  do 3 (destruct p as [p|p|]; try reflexivity; try lia).
Qed.

Lemma append_length a : forall b, String.length (a ++ b)%string = (String.length a + String.length b)%nat.
Proof. induction a as [|c a IH]; intros b; [reflexivity|]. cbn [append String.length]. rewrite IH. reflexivity. Qed.

Lemma append_prefix a : forall b, String.prefix a (a ++ b)%string = true.
Proof. induction a as [|c a IH]; intros b; [destruct b; reflexivity|]. cbn [append String.prefix]. destruct (Ascii.ascii_dec c c); [apply IH|congruence]. Qed.

Theorem names_tell : forall {S : Type} (base : logger S) name level,
  lg_name (channel_logger base name level) = name /\
  String.prefix name (lg_name (connection_logger base name level)) = true /\
  String.prefix name (lg_name (server_logger base name level)) = true /\
  lg_name (connection_logger base name level) <> name /\ lg_name (server_logger base name level) <> name /\
  lg_name (connection_logger base name level) <> lg_name (server_logger base name level).
Proof.
  intros S0 base name level. unfold channel_logger, connection_logger, server_logger, clone_at. cbn [lg_name].
  split; [reflexivity|]. split; [apply append_prefix|]. split; [apply append_prefix|].
  repeat split; intros E; apply (f_equal String.length) in E; rewrite ?append_length in E; cbn in E; lia.
Qed.
