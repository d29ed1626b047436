(** Model of lib/src/messages/mbap: the MBAP frame builder and the MBAP stream
    parser. *)
From Verif Require Import Prelude Ser4 Messages.

(** ** Frames *)

(** lib/src/messages/mbap/MbapMessage.h:28-42. [data] is a view of the parser's
    buffer in the code; it is only used during the call of the sink, so its
    content is stored here. *)
Record mbap_message : Type := {
  mb_unit : N;
  mb_tx : N;
  mb_data : list N
}.

(** lib/src/messages/mbap/MbapMessage.cpp:33-53, on a fresh buffer of [cap]
    bytes (260 at both call sites: client/channel/ClientChannelTcp.cpp:187-191
    and server/channel/ServerChannelTcp.cpp:204-208).  The result is a view of
    the buffer; cells that were never written are [None]. *)
Definition mbap_build (cap : nat) (unit tx : N) (message : imessage) : list (option N) :=
  let length := im_length message in
  let length := if 253 <? length then 253 else length in
  let w := wseq_new cap in
  let w := write_u16 w tx in
  let w := write_u16 w 0 in
  let w := write_u16 w (to_u16 (length + 1)) in
  let w := write_u8 w unit in
  let w := im_build message w in
  firstn (N.to_nat (length + 7)) (w_storage w).

(** ** The parser *)

(** lib/src/messages/mbap/MbapParser.h:39-41 *)
Definition MaxMbapSize : nat := 260.
Definition MaxMbapHeaderSize : nat := 7.
Definition ModbusProtocolId : N := 0.

(** What [wseq_t::copy_from] does when the source is longer than the
    destination (ser4cpp is not in the repository): copy nothing, or copy as
    much as fits.  Everything below is parametrised by this choice. *)
Inductive copy_policy := AllOrNothing | Truncate.

(** Members of [MbapParser] (MbapParser.h:43-47): the 260 bytes of [m_buffer],
    the position of [m_buffer_view] in it, [m_num_bytes_to_read] and
    [m_reading_body]. *)
Record pstate : Type := {
  p_buf : list N;
  p_pos : nat;
  p_need : nat;
  p_body : bool
}.

(** memcpy into [m_buffer]; outside of it is undefined behaviour. *)
Definition buf_write (buf : list N) (pos : nat) (data : list N) : outcome (list N) :=
  if Nat.leb (pos + List.length data) (List.length buf)
  then Ret (firstn pos buf ++ data ++ skipn (pos + List.length data) buf)
  else UB.

(** [m_buffer_view.copy_from(read)] (MbapParser.cpp:37); the view ends where the
    buffer ends. *)
Definition copy_from (pol : copy_policy) (st : pstate) (read : list N) : outcome pstate :=
  let room := (List.length (p_buf st) - p_pos st)%nat in
  let src :=
    if Nat.leb (List.length read) room then read
    else match pol with AllOrNothing => [] | Truncate => firstn room read end in
  let! buf := buf_write (p_buf st) (p_pos st) src in
  Ret {| p_buf := buf; p_pos := p_pos st + List.length src;
         p_need := p_need st; p_body := p_body st |}.

(** MbapParser.cpp:53-58 *)
Definition mbap_reset (st : pstate) : pstate :=
  {| p_buf := p_buf st; p_pos := 0; p_need := MaxMbapHeaderSize; p_body := false |}.

(** MbapParser.cpp:24-28: the constructor; the content of the buffer is
    arbitrary. *)
Definition mbap_new (buf : list N) : pstate :=
  mbap_reset {| p_buf := buf; p_pos := 0; p_need := 0; p_body := false |}.

(** MbapParser.cpp:60-75 *)
Definition find_body_size (st : pstate) : outcome pstate :=
  rd16 (skipn 4 (p_buf st)) (fun length _ =>
  if length =? 0 then Ret (mbap_reset st)
  else Ret {| p_buf := p_buf st; p_pos := p_pos st;
              p_need := N.to_nat (length - 1); p_body := true |}).

(** MbapParser.cpp:77-106. The second component is the call of the sink. *)
Definition send_data (st : pstate) : outcome (pstate * list mbap_message) :=
  rd16 (p_buf st) (fun tx view =>
  rd16 view (fun protocol_id view =>
  rd16 view (fun length view =>
  rd8 view (fun unit view =>
  let message := {| mb_unit := unit; mb_tx := tx;
                    mb_data := firstn (N.to_nat (size_sub length 1)) view |} in
  Ret (mbap_reset st,
       if (protocol_id =? ModbusProtocolId) && (0 <? length) then [message] else []))))).

(** MbapParser.cpp:30-51: the loop, with fuel; [None] is out of fuel.  The sink
    does not call back into the parser (see Server.v and Client.v), so its calls
    are collected in a list. *)
Fixpoint parse_loop (pol : copy_policy) (fuel : nat) (st : pstate) (data : rseq)
    : option (outcome (pstate * list mbap_message)) :=
  match data with
  | [] => Some (Ret (st, []))
  | _ =>
    match fuel with
    | O => None
    | S fuel =>
        let read := firstn (p_need st) data in
        let data := skipn (List.length read) data in
        let st := {| p_buf := p_buf st; p_pos := p_pos st;
                     p_need := p_need st - List.length read; p_body := p_body st |} in
        match copy_from pol st read with
        | UB => Some UB
        | Ret st =>
            if Nat.eqb (p_need st) 0 then
              if negb (p_body st) then
                match find_body_size st with
                | UB => Some UB
                | Ret st => parse_loop pol fuel st data
                end
              else
                match send_data st with
                | UB => Some UB
                | Ret (st, out) =>
                    match parse_loop pol fuel st data with
                    | Some (Ret (st, out')) => Some (Ret (st, out ++ out'))
                    | r => r
                    end
                end
            else parse_loop pol fuel st data
        end
    end
  end.

(** [MbapParser::parse].  Running out of fuel would mean that the loop does not
    terminate; it is mapped to [UB] and shown impossible in MbapFacts.v. *)
Definition mbap_parse (pol : copy_policy) (st : pstate) (data : rseq)
    : outcome (pstate * list mbap_message) :=
  match parse_loop pol (2 * List.length data + 2) st data with
  | Some r => r
  | None => UB
  end.

(** A receiver's life: chunks and resets in any order. *)
Inductive mbap_op : Type :=
| Chunk (data : rseq)
| Reset.

Fixpoint mbap_run (pol : copy_policy) (st : pstate) (ops : list mbap_op)
    : outcome (pstate * list mbap_message) :=
  match ops with
  | [] => Ret (st, [])
  | Chunk data :: ops =>
      let! (st, out) := mbap_parse pol st data in
      let! (st, out') := mbap_run pol st ops in
      Ret (st, out ++ out')
  | Reset :: ops => mbap_run pol (mbap_reset st) ops
  end.
