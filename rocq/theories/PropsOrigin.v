(** The properties of the origin of values. *)
From Verif Require Import Prelude Ser4 Messages Mbap Client Server Database System.
From Verif Require Import AsyncWrite ClientConn ClientTcp Listener ServerConn ServerTcp World.
From Verif Require Import Scheduled SessionCall Session Full.
From Verif Require Import SpecPdu SpecMbap SpecClient SpecServer SpecDb SpecConn SpecClientTcp SpecServerTcp SpecSystem SpecSession SpecWorld SpecFull SpecOrder SpecOrigin.
From Verif Require Import OriginFacts OriginFull OriginCases SystemCases WorldCases FullCases.

(** ** C128: what is read is what was written last

    Every value that is read was given to its address by a call that succeeded, after which no
    call that succeeded gave it another. *)
Theorem C128_database : forall cs d rs n q x t a v, Forall typed_call cs -> run_calls cs db_empty = Ret (d, rs) ->
  nth_error cs n = Some (CRequest q) -> nth_error rs n = Some (RResponse (Value x)) -> says x t a v -> given_last no_values cs rs n t a v.
Proof. exact database_was_given. Qed.
Print Assumptions C128_database.

(** Without transactions there is just one such value. *)
Theorem C128_unique : forall F0 cs rs n t a v v', (forall x, ~ In (CTransaction x) cs) ->
  given_last F0 cs rs n t a v -> given_last F0 cs rs n t a v' -> v = v'.
Proof. exact given_once. Qed.
Print Assumptions C128_unique.

Example C128_case : Forall typed_call some_calls /\ (exists d, run_calls some_calls db_empty = Ret (d, some_results)) /\
  says (HoldingRegistersRead [(5, 9); (6, 7)]) Holdings 5 9 /\ given_last no_values some_calls some_results 5 Holdings 5 9 /\
  ~ given_last no_values some_calls some_results 5 Holdings 5 1 /\ ~ given_last no_values some_calls some_results 5 Holdings 5 8.
Proof. exact some_run. Qed.
Print Assumptions C128_case.

(** So is what a user of a client is told, with everything between them and the database: it
    is what the address was given last, by whomever, when the request took effect, which was
    after it was made and before the user was told. *)
Theorem C128_told : forall {W : Type} (user : users W) pol units d F0 w0 es w l,
  Forall u8 units -> full_history user pol units d w0 es w l -> forderly user pol w0 es l -> holds d F0 -> few_calls (world_marks l) ->
  exists os log F, observed_with_others (world_marks l) os /\ holds (us_user (wd_server w)) F /\ accesses os log /\
    calls_spec F0 (map x_call log) (map x_result log) F /\ NoDup (executed log) /\
    forall a m b s x t ad v, l = a ++ FK m :: b -> In (s, Value x) (tellings [m]) -> says x t ad v ->
      exists i r n before after, os = before ++ after /\ observed_with_others (world_marks a) before /\ request_of l s i r /\
        (n < List.length (db_calls before))%nat /\ nth_error log n = Some {| x_call := CRequest r; x_result := RResponse (Value x); x_by := Some i |} /\
        since_call os i n /\ given_last F0 (map x_call log) (map x_result log) n t ad v.
Proof. exact @told_was_given. Qed.
Print Assumptions C128_told.

(** The second value was written by a local user of the database. *)
Example C128_told_case : let l := full_marks whole_line in
  full_history then_reads Truncate [9] three_registers full_from whole_line (full_final whole_line) l /\ forderly then_reads Truncate full_from whole_line l /\
  few_calls (world_marks l) /\
  In (Once 1, Value (HoldingRegistersRead [(5, 9); (6, 0); (7, 0)])) (tellings (session_outputs l)) /\
  In (Polling 0 0, Value (HoldingRegistersRead [(5, 77)])) (tellings (session_outputs l)) /\
  says (HoldingRegistersRead [(5, 77)]) Holdings 5 77.
Proof.
  assert (H := whole_line_rest). cbn zeta in *. destruct H as (H1 & H2 & _ & _ & _ & _ & H3 & H4). rewrite H4.
  split; [exact H1|]. split; [exact H2|]. split; [exact H3|]. split; [right; left; reflexivity|]. split; [right; right; left; reflexivity|]. left. reflexivity.
Qed.
Print Assumptions C128_told_case.
