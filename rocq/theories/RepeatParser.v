(** Proofs about a frame that a parser gets twice. *)
From Verif Require Import Prelude Ser4 Messages Mbap SpecPdu SpecMbap BitFacts CodecLemmas MbapFacts Server ServerFacts SpecChunks ChunksFacts.

Definition rest (buf : list N) : pstate := {| p_buf := buf; p_pos := 0; p_need := 7; p_body := false |}.

(** What is copied of a body. *)
Definition cut (pol : copy_policy) (b : list N) : list N :=
  if Nat.leb (List.length b) 253 then b else match pol with AllOrNothing => [] | Truncate => firstn 253 b end.

Lemma cut_length pol b : (List.length (cut pol b) <= 253)%nat.
Proof.
  unfold cut. destruct (Nat.leb_spec (List.length b) 253); [assumption|]. destruct pol; [cbn; lia|]. rewrite firstn_length. lia.
Qed.

Definition header (x : item) : list N := be16 (i_tx x) ++ be16 (i_proto x) ++ be16 (announced x) ++ [i_unit x].

Lemma bytes_of x : item_bytes x = header x ++ body_of x.
Proof. unfold item_bytes, header. rewrite <- !app_assoc. reflexivity. Qed.

Lemma buffer_split (buf : list N) : List.length buf = 260%nat -> exists a b c d e f g r, buf = a :: b :: c :: d :: e :: f :: g :: r /\ List.length r = 253%nat.
Proof.
  intros H. destruct buf as [|a [|b [|c [|d [|e [|f [|g r]]]]]]]; try discriminate H. do 8 eexists. split; [reflexivity|]. cbn in H. lia.
Qed.

Lemma copy_at pol h r n b k : List.length h = 7%nat -> List.length r = 253%nat ->
  copy_from pol {| p_buf := h ++ r; p_pos := 7; p_need := n; p_body := k |} b =
  Ret {| p_buf := h ++ cut pol b ++ skipn (List.length (cut pol b)) r; p_pos := 7 + List.length (cut pol b); p_need := n; p_body := k |}.
Proof.
  intros Hh Hr. unfold copy_from. cbn [p_buf p_pos p_need p_body]. rewrite app_length, Hh, Hr. change (7 + 253 - 7)%nat with 253%nat. fold (cut pol b).
  unfold buf_write. rewrite app_length, Hh, Hr. assert (C := cut_length pol b). rewrite (proj2 (Nat.leb_le _ _)) by lia. cbn [obind].
  f_equal. f_equal.
  replace 7%nat with (List.length h) at 1 by exact Hh. rewrite firstn_app, firstn_all, Nat.sub_diag, firstn_O, app_nil_r. f_equal. f_equal.
  rewrite skipn_app, skipn_all2 by lia. cbn [app]. f_equal. lia.
Qed.

Lemma header_step pol fuel h r x b : List.length h = 7%nat -> List.length r = 253%nat -> typed_item x ->
  parse_loop pol (S fuel) (rest (h ++ r)) (header x ++ b) =
  match i_body x with
  | None => parse_loop pol fuel (rest (header x ++ r)) b
  | Some l => parse_loop pol fuel {| p_buf := header x ++ r; p_pos := 7; p_need := List.length l; p_body := true |} b
  end.
Proof.
  intros Hh Hr T. destruct (list7 h Hh) as (h0 & h1 & h2 & h3 & h4 & h5 & h6 & ->).
  unfold header, be16. cbn [app]. cbn [parse_loop]. cbn [rest p_need p_buf p_pos p_body firstn List.length skipn Nat.sub].
  unfold copy_from. cbn [p_need p_buf p_pos p_body]. cbn [List.length]. rewrite Hr. cbn [Nat.sub Nat.leb].
  unfold buf_write. cbn [List.length firstn Nat.add]. rewrite Hr. cbn [Nat.leb app skipn obind p_need Nat.eqb p_body negb p_buf p_pos].
  unfold find_body_size. cbn [p_buf p_pos p_need p_body skipn rd16 read_u16].
  assert (A : announced x / 256 * 256 + announced x mod 256 = announced x) by lia. rewrite A.
  unfold announced in *. destruct (i_body x) as [l|] eqn:E.
  - destruct (N.eqb_spec (1 + size l) 0); [lia|]. replace (N.to_nat (1 + size l - 1)) with (List.length l) by (unfold size; lia). reflexivity.
  - reflexivity.
Qed.

(** The messages of the frame in a buffer. *)
Definition message_in (buf : list N) : list mbap_message :=
  match send_data (rest buf) with Ret (_, ms) => ms | UB => [] end.

Lemma send_in st h r : p_buf st = h ++ r -> List.length h = 7%nat -> send_data st = Ret (rest (p_buf st), message_in (p_buf st)).
Proof.
  intros E Hh. destruct (list7 h Hh) as (h0 & h1 & h2 & h3 & h4 & h5 & h6 & ->). unfold message_in, send_data, mbap_reset. cbn [rest p_buf]. rewrite E. reflexivity.
Qed.

Lemma header_length x : List.length (header x) = 7%nat.
Proof. reflexivity. Qed.

(** What becomes of the parser, and the messages. *)
Definition after (pol : copy_policy) (x : item) (r : list N) : pstate * list mbap_message :=
  match i_body x with
  | None => (rest (header x ++ r), [])
  | Some [] => ({| p_buf := header x ++ r; p_pos := 7; p_need := 0; p_body := true |}, [])
  | Some b => let buf := header x ++ cut pol b ++ skipn (List.length (cut pol b)) r in (rest buf, message_in buf)
  end.

Lemma rest_loop pol fuel h r x : List.length h = 7%nat -> List.length r = 253%nat -> typed_item x ->
  parse_loop pol (S (S fuel)) (rest (h ++ r)) (item_bytes x) = Some (Ret (after pol x r)).
Proof.
  intros Hh Hr T. rewrite bytes_of, header_step by assumption. unfold after, body_of. destruct (i_body x) as [[|y b]|] eqn:E; [reflexivity| |reflexivity].
  cbn [parse_loop]. cbn [p_need p_buf p_pos p_body]. rewrite firstn_all. rewrite Nat.sub_diag. rewrite (copy_at pol _ _ _ _ _ (header_length x) Hr).
  cbn [p_need p_body Nat.eqb negb]. erewrite send_in; [|reflexivity|exact (header_length x)].
  cbn [p_buf]. rewrite skipn_all. destruct fuel; cbn [parse_loop]; rewrite app_nil_r; reflexivity.
Qed.

Lemma cut_again pol b r : List.length r = 253%nat ->
  let r' := cut pol b ++ skipn (List.length (cut pol b)) r in List.length r' = 253%nat /\ cut pol b ++ skipn (List.length (cut pol b)) r' = r'.
Proof.
  intros Hr r'. assert (C := cut_length pol b). split; [unfold r'; rewrite app_length, skipn_length; lia|].
  unfold r' at 1. rewrite skipn_app, skipn_all, Nat.sub_diag. reflexivity.
Qed.

(** The remainder of the buffer is the same the second time. *)
Lemma after_again pol x r : List.length r = 253%nat -> exists r', p_buf (fst (after pol x r)) = header x ++ r' /\ List.length r' = 253%nat /\ after pol x r' = after pol x r.
Proof.
  intros Hr. unfold after. destruct (i_body x) as [[|y b]|].
  - exists r. auto.
  - destruct (cut_again pol (y :: b) r Hr) as [A B]. eexists. split; [reflexivity|]. split; [exact A|]. rewrite B. reflexivity.
  - exists r. auto.
Qed.

(** An empty frame that was not dealt with yet. *)
Lemma flush pol fuel st h r d : p_buf st = h ++ r -> List.length h = 7%nat -> List.length r = 253%nat -> (p_pos st <= 260)%nat -> p_need st = 0%nat -> p_body st = true -> d <> [] ->
  parse_loop pol (S fuel) st d = match parse_loop pol fuel (rest (p_buf st)) d with Some (Ret (p, ms)) => Some (Ret (p, message_in (p_buf st) ++ ms)) | x => x end.
Proof.
  intros E Hh Hr Hp Hn Hb Hd. destruct d as [|y d]; [contradiction|]. cbn [parse_loop]. rewrite Hn. cbn [firstn List.length skipn Nat.sub].
  assert (C : copy_from pol {| p_buf := p_buf st; p_pos := p_pos st; p_need := 0; p_body := p_body st |} [] =
    Ret {| p_buf := p_buf st; p_pos := p_pos st; p_need := 0; p_body := true |}).
  { unfold copy_from. cbn [p_buf p_pos p_need p_body List.length Nat.leb]. unfold buf_write. cbn [List.length]. rewrite !Nat.add_0_r.
    assert (L : List.length (p_buf st) = 260%nat) by (rewrite E, app_length; lia). rewrite L, (proj2 (Nat.leb_le _ _) Hp). cbn [obind app].
    rewrite firstn_skipn, Hb. reflexivity. }
  rewrite C. cbn [p_need p_body Nat.eqb negb]. erewrite send_in; [|exact E|exact Hh]. cbn [p_buf].
  destruct (parse_loop pol fuel (rest (p_buf st)) (y :: d)) as [[[p ms]|]|]; reflexivity.
Qed.

(** ** Between two frames *)
Definition between (r : list N) (p : pstate) : Prop :=
  List.length r = 253%nat /\ exists h, p_buf p = h ++ r /\ List.length h = 7%nat /\
    (p = rest (p_buf p) \/ ((p_pos p <= 260)%nat /\ p_need p = 0%nat /\ p_body p = true /\ filter heard (message_in (p_buf p)) = [])).

Lemma empty_unheard x r : i_body x = Some [] -> filter heard (message_in (header x ++ r)) = [].
Proof.
  intros E. unfold message_in, send_data, header, be16. cbn [rest p_buf app rd16 read_u16 rd8 read_u8]. unfold announced. rewrite E. cbn [size List.length N.of_nat].
  destruct (_ && _); reflexivity.
Qed.

Lemma parsed_between pol p x r : between r p -> typed_item x ->
  exists ms, mbap_parse pol p (item_bytes x) = Ret (fst (after pol x r), ms) /\ filter heard ms = filter heard (snd (after pol x r)).
Proof.
  intros (Hr & h & E & Hh & H) T. unfold mbap_parse. assert (L : exists n, (2 * List.length (item_bytes x) + 2 = S (S (S n)))%nat).
  { rewrite bytes_of, app_length, header_length. exists (2 * (7 + List.length (body_of x)) - 1)%nat. lia. }
  destruct L as [n ->]. destruct H as [H|(Hp & Hn & Hb & Hm)].
  - rewrite H, E, rest_loop by assumption. exists (snd (after pol x r)). split; [|reflexivity]. destruct (after pol x r); reflexivity.
  - rewrite (flush pol _ p h r) by (assumption || (rewrite bytes_of; discriminate)). rewrite E, rest_loop by assumption. destruct (after pol x r) as [q ms]. cbn [fst snd].
    exists (message_in (h ++ r) ++ ms). split; [reflexivity|]. rewrite filter_app, <- E, Hm. reflexivity.
Qed.

Lemma after_between pol x r : List.length r = 253%nat -> exists r', between r' (fst (after pol x r)) /\ after pol x r' = after pol x r.
Proof.
  intros Hr. destruct (after_again pol x r Hr) as (r' & E & Hr' & Ag). exists r'. split; [|exact Ag]. split; [exact Hr'|]. exists (header x). split; [exact E|]. split; [exact (header_length x)|].
  clear Ag. unfold after in *. destruct (i_body x) as [[|y b]|] eqn:Eb; cbn [fst p_buf p_pos p_need p_body] in *; [right|left; reflexivity|left; reflexivity].
  split; [lia|]. split; [reflexivity|]. split; [reflexivity|]. apply empty_unheard. exact Eb.
Qed.

(** The second time: the same messages, and the parser remains as it is. *)
Lemma parsed_twice pol p x r : between r p -> typed_item x ->
  exists p' ms ms', mbap_parse pol p (item_bytes x) = Ret (p', ms) /\ mbap_parse pol p' (item_bytes x) = Ret (p', ms') /\ filter heard ms' = filter heard ms.
Proof.
  intros Hp T. destruct (parsed_between pol p x r Hp T) as (ms & E & M). destruct (after_between pol x r (proj1 Hp)) as (r' & B & Ag).
  destruct (parsed_between pol _ x r' B T) as (ms' & E' & M'). rewrite Ag in E', M'. exists (fst (after pol x r)), ms, ms'. split; [exact E|]. split; [exact E'|]. congruence.
Qed.

Lemma heard_one pol x r : (List.length (filter heard (snd (after pol x r))) <= 1)%nat.
Proof.
  assert (Q : forall buf, (List.length (filter heard (message_in buf)) <= 1)%nat).
  { intros buf. unfold message_in, send_data. destruct (rd16 _ _) as [[q ms]|] eqn:E; [|cbn; lia]. unfold rd16, rd8 in E. repeat match type of E with (match ?e with _ => _ end) = _ => destruct e as [[? ?]|]; [|discriminate E] end.
    injection E as _ <-. destruct (_ && _); [|cbn; lia]. cbn [filter]. destruct (heard _); cbn; lia. }
  unfold after. destruct (i_body x) as [[|y b]|]; cbn [snd]; [cbn; lia|apply Q|cbn; lia].
Qed.

Lemma R_between pol p u : R pol p u -> u = [] \/ (exists i, typed_item i /\ u = item_bytes i /\ i_body i = Some []) -> exists r, between r p.
Proof.
  intros ([Hl Hb] & Hu & H) K. destruct (buffer_split _ Hl) as (a & b & c & d & e & f & g & r & E & Hr). exists r. split; [exact Hr|].
  exists [a; b; c; d; e; f; g]. split; [exact E|]. split; [reflexivity|]. destruct K as [->|(i & Ti & -> & Ei)].
  - left. destruct H as [(H1 & _ & H2 & H3 & _)|[(_ & x & y & z & w & v & t & s & l & m & k & Q & _) _]]; [|discriminate Q].
    destruct p as [pb pp pn pd]. cbn in *. subst. unfold rest. f_equal. lia.
  - right. rewrite bytes_of in H. unfold body_of in H. rewrite Ei, app_nil_r in H. destruct H as [(_ & H & _)|[H _]]; [rewrite header_length in H; lia|].
    destruct H as (Hbody & x & y & z & w & v & t & s & l & m & k & Q1 & Q2 & Q3 & Q4 & Q5 & _). split; [lia|].
    unfold header, be16, announced in Q1. rewrite Ei in Q1. cbn [app] in Q1. injection Q1 as <- <- <- <- <- <- <- <-. split; [cbn in Q3; lia|]. split; [exact Hbody|].
    rewrite Q2. assert (Z := empty_unheard i m Ei). unfold header, be16, announced in Z. rewrite Ei in Z. exact Z.
Qed.
