(** The order in which requests take effect. *)
From Verif Require Import Prelude Ser4 Messages Mbap Client Server Database System.
From Verif Require Import AsyncWrite ClientConn ClientTcp Listener ServerConn ServerTcp World.
From Verif Require Import Scheduled SessionCall Session Full.
From Verif Require Import SpecPdu SpecMbap SpecClient SpecServer SpecDb SpecConn SpecClientTcp SpecServerTcp SpecSystem SpecSession SpecWorld SpecFull SpecOrder.
From Verif Require Import DbLemmas ClientFacts ClientLemmas SystemFacts WorldLemmas WorldParts WorldRest.

(** ** One table of values *)
Lemma same_unchanged F F' t a : unchanged F F' -> F' t a = F t a.
Proof. intros H. exact (H t a). Qed.

Lemma covered_in {V} (f : vmap V) s vs a : covered f s (size vs) -> s <= a < s + size vs -> exists i (v : V), nth_error vs i = Some v /\ a = s + N.of_nat i.
Proof.
  intros _ H. destruct (nth_error vs (N.to_nat (a - s))) as [v|] eqn:E.
  - exists (N.to_nat (a - s)), v. split; [exact E|lia].
  - apply nth_error_None in E. unfold size in H. lia.
Qed.

Lemma write_leaves F t s vs ok F' x t' a : write_spec F t s vs ok F' x -> (t' = t -> ~ (s <= a < s + size vs)) -> F' t' a = F t' a.
Proof.
  intros [(_ & [U O] & _)|(_ & U & _)] H; [|apply same_unchanged; exact U].
  assert (D : {t' = t} + {t' <> t}) by decide equality. destruct D as [->|D]; [|exact (O _ D a)].
  apply (proj2 U). specialize (H eq_refl). lia.
Qed.

Lemma request_leaves F r F' x t a : request_spec F r F' x -> ~ (exists v, puts r t a v) -> F' t a = F t a.
Proof.
  intros H K. destruct r; cbn [request_spec] in H; try (apply same_unchanged; exact (proj1 H)).
  - apply (write_leaves _ _ _ _ _ _ _ t a H). intros -> L. apply K. cbn. eexists. split; [|reflexivity]. change (size [_]) with 1 in L. lia.
  - apply (write_leaves _ _ _ _ _ _ _ t a H). intros -> L. apply K. cbn. eexists. split; [|reflexivity]. change (size [_]) with 1 in L. lia.
  - apply (write_leaves _ _ _ _ _ _ _ t a H). intros -> L. apply K. cbn.
    destruct (nth_error values (N.to_nat (a - start))) as [v|] eqn:E; [exists v, (N.to_nat (a - start)); split; [exact E|lia]|].
    apply nth_error_None in E. unfold size in L. cbn [val] in L, E. lia.
  - apply (write_leaves _ _ _ _ _ _ _ t a H). intros -> L. apply K. cbn.
    destruct (nth_error values (N.to_nat (a - start))) as [v|] eqn:E; [exists v, (N.to_nat (a - start)); split; [exact E|lia]|].
    apply nth_error_None in E. unfold size in L. cbn [val] in L, E. lia.
Qed.

Lemma call_leaves F c F' r t a : call_spec F c F' r -> ~ touches c t a -> F' t a = F t a.
Proof.
  destruct c as [t' b v|q|x]; cbn [call_spec touches].
  - intros [(_ & [U O] & _)|(_ & U & _)] H; [|apply same_unchanged; exact U].
    assert (D : {t = t'} + {t <> t'}) by decide equality. destruct D as [->|D]; [|exact (O _ D a)].
    apply (proj2 U). unfold size. cbn. assert (b <> a) by tauto. lia.
  - intros (x & H & _) K. exact (request_leaves _ _ _ _ _ _ H K).
  - intros _ K. contradiction (K I).
Qed.

Lemma request_puts F r F' x t a v : request_spec F r F' (Value x) -> puts r t a v -> F' t a = Some v.
Proof.
  assert (M : forall t s vs ok i v, write_spec F t s vs ok F' (Value x) -> nth_error vs i = Some v -> F' t (s + N.of_nat i) = Some v).
  { intros t0 s vs ok i v0 [(_ & [[U _] _] & _)|(_ & _ & K)] E; [exact (U _ _ E)|discriminate K]. }
  destruct r, t; cbn [request_spec puts]; try contradiction; intros H.
  - intros (-> & ->). rewrite <- (N.add_0_r address). exact (M _ _ _ _ 0%nat _ H eq_refl).
  - intros (-> & ->). rewrite <- (N.add_0_r address). exact (M _ _ _ _ 0%nat _ H eq_refl).
  - intros (i & E & ->). exact (M _ _ _ _ _ _ H E).
  - intros (i & E & ->). exact (M _ _ _ _ _ _ H E).
Qed.

Lemma request_says F r F' x t a v : request_spec F r F' (Value x) -> says x t a v -> F t a = Some v.
Proof.
  assert (M : forall t s q mk vs (v : val t), read_spec F t s q mk F' (Value (mk vs)) -> (forall a b, mk a = mk b -> a = b) -> In (a, v) vs -> F t a = Some v).
  { intros t0 s q mk vs v0 (_ & [(_ & vs' & _ & K & E)|(_ & E)]) Inj Hin; [|discriminate E]. injection E as E. apply Inj in E. subst vs'.
    apply In_nth_error in Hin as (i & Hi). exact (proj2 (K _ _ _ Hi)). }
  destruct r; cbn [request_spec]; try (intros [(_ & _ & E)|(_ & _ & E)]; [injection E as ->|discriminate E]; destruct t; contradiction);
    intros H; pose proof H as (_ & [(_ & vs & _ & _ & E)|(_ & E)]); try discriminate E; injection E as ->; destruct t; cbn [says]; try contradiction; apply (M _ _ _ _ _ _ H);
    intros a0 b0 E0; injection E0; auto.
Qed.

(** ** A log of accesses *)
Lemma calls_nth F cs rs F' : calls_spec F cs rs F' -> forall n c r, nth_error cs n = Some c -> nth_error rs n = Some r ->
  exists F1 F2, calls_spec F (firstn n cs) (firstn n rs) F1 /\ call_spec F1 c F2 r /\ calls_spec F2 (skipn (S n) cs) (skipn (S n) rs) F'.
Proof.
  induction 1 as [F F' U|F c0 r0 F1 cs rs F2 C0 C IH]; intros [|n] c r E1 E2; cbn [nth_error] in *; try discriminate E1.
  - injection E1 as ->. injection E2 as ->. exists F, F1. split; [constructor; intros t a; reflexivity|]. split; [exact C0|exact C].
  - destruct (IH _ _ _ E1 E2) as (G1 & G2 & A & B & D). exists G1, G2. split; [econstructor; eauto|]. split; [exact B|exact D].
Qed.

Lemma calls_leave F cs rs F' t a : calls_spec F cs rs F' -> (forall c, In c cs -> ~ touches c t a) -> F' t a = F t a.
Proof.
  induction 1 as [F F' U|F c0 r0 F1 cs rs F2 C0 C IH]; intros H; [apply same_unchanged; exact U|].
  rewrite IH; [|intros c Hc; apply H; right; exact Hc]. apply (call_leaves _ _ _ _ _ _ C0). apply H. left. reflexivity.
Qed.

Lemma touches_dec c t a : touches c t a \/ ~ touches c t a.
Proof.
  destruct c as [t' b v|r|x]; cbn [touches]; [|destruct r, t; cbn [puts]; try solve [right; intros (v & [])]|left; exact I].
  - assert (D : {t' = t} + {t' <> t}) by decide equality. destruct D; [|tauto]. destruct (N.eq_dec b a); tauto.
  - destruct (N.eq_dec a address) as [->|D]; [left; eauto|right; intros (v & -> & _); apply D; reflexivity].
  - destruct (N.eq_dec a address) as [->|D]; [left; eauto|right; intros (v & -> & _); apply D; reflexivity].
  - destruct (N.le_gt_cases start a) as [L|L]; [|right; intros (v & i & _ & ->); lia].
    destruct (nth_error values (N.to_nat (a - start))) as [v|] eqn:E; [left; exists v, (N.to_nat (a - start)); split; [exact E|lia]|].
    right. intros (v & i & Ei & ->). replace (N.to_nat (start + N.of_nat i - start)) with i in E by lia. rewrite E in Ei. discriminate Ei.
  - destruct (N.le_gt_cases start a) as [L|L]; [|right; intros (v & i & _ & ->); lia].
    destruct (nth_error values (N.to_nat (a - start))) as [v|] eqn:E; [left; exists v, (N.to_nat (a - start)); split; [exact E|lia]|].
    right. intros (v & i & Ei & ->). replace (N.to_nat (start + N.of_nat i - start)) with i in E by lia. rewrite E in Ei. discriminate Ei.
Qed.

Lemma touched_dec (cs : list Database.call) t a : (exists k c, nth_error cs k = Some c /\ touches c t a) \/ forall c, In c cs -> ~ touches c t a.
Proof.
  induction cs as [|c cs IH]; [right; intros c []|]. destruct (touches_dec c t a) as [K|K]; [left; exists 0%nat, c; split; [reflexivity|exact K]|].
  destruct IH as [(k & c' & E & T)|H]; [left; exists (S k), c'; split; [exact E|exact T]|]. right. intros c' [<-|Hc]; [exact K|exact (H _ Hc)].
Qed.

(** A read after a write finds what was written, or what was written in between. *)
Lemma read_after_write F0 log F m r x rm n r' y t a v v' : calls_spec F0 (map x_call log) (map x_result log) F ->
  nth_error log m = Some {| x_call := CRequest r; x_result := RResponse (Value x); x_by := rm |} ->
  (exists b, nth_error log n = Some {| x_call := CRequest r'; x_result := RResponse (Value y); x_by := b |}) -> (m < n)%nat ->
  puts r t a v -> says y t a v' -> v' = v \/ touched_between log m n t a.
Proof.
  intros C Em (b & En) L Hp Hs.
  destruct (calls_nth _ _ _ _ C m _ _ (map_nth_error x_call _ _ Em) (map_nth_error x_result _ _ Em)) as (F1 & F2 & _ & C1 & C2).
  cbn [x_call x_result call_spec] in C1. destruct C1 as (x' & C1 & E). injection E as <-. pose proof (request_puts _ _ _ _ _ _ _ C1 Hp) as P.
  assert (Es : nth_error (skipn (S m) log) (n - S m) = Some {| x_call := CRequest r'; x_result := RResponse (Value y); x_by := b |}).
  { rewrite <- (firstn_skipn (S m) log) in En. rewrite nth_error_app2 in En; rewrite firstn_length in *.
    - assert (S m <= List.length log)%nat by (apply Nat.lt_le_incl in L; apply nth_error_Some; congruence). rewrite Nat.min_l in En by assumption. exact En.
    - lia. }
  rewrite !skipn_map in C2.
  destruct (calls_nth _ _ _ _ C2 _ _ _ (map_nth_error x_call _ _ Es) (map_nth_error x_result _ _ Es)) as (G1 & G2 & D1 & D2 & _).
  cbn [x_call x_result call_spec] in D2. destruct D2 as (x' & D2 & E). injection E as <-. pose proof (request_says _ _ _ _ _ _ _ D2 Hs) as Q.
  destruct (touched_dec (firstn (n - S m) (map x_call (skipn (S m) log))) t a) as [(k & c & Ec & T)|H].
  - right. assert (Lk : (k < n - S m)%nat).
    { assert (K : (k < List.length (firstn (n - S m) (map x_call (skipn (S m) log))))%nat) by (apply nth_error_Some; congruence). rewrite firstn_length in K. lia. }
    rewrite firstn_map in Ec. rewrite nth_error_map in Ec. destruct (nth_error (firstn (n - S m) (skipn (S m) log)) k) as [e|] eqn:Ee; [|discriminate Ec]. injection Ec as <-.
    exists (S m + k)%nat, e. split; [lia|]. split; [|exact T].
    assert (Ek : nth_error (skipn (S m) log) k = Some e).
    { rewrite <- (firstn_skipn (n - S m) (skipn (S m) log)). rewrite nth_error_app1; [exact Ee|]. apply nth_error_Some. congruence. }
    rewrite <- (firstn_skipn (S m) log), nth_error_app2; rewrite firstn_length.
    + assert (S m <= List.length log)%nat by (assert (n < List.length log)%nat by (apply nth_error_Some; congruence); lia). rewrite Nat.min_l by assumption.
      replace (S m + k - S m)%nat with k by lia. exact Ek.
    + lia.
  - left. rewrite (calls_leave _ _ _ _ t a D1 H), P in Q. injection Q as ->. reflexivity.
Qed.
