(** Properties C17-C22: the wire format. *)
From Verif Require Import Messages MessagesSpec MessagesProofs HashProofs.
From Coq Require Import ZifyBool ZifyNat ZifyN.

Local Open Scope N_scope.
Definition ex_hash : hash := be 20 1234567890123456789012345678901234567890.
Local Close Scope N_scope.

(** *** C17: Parse(Serialize m ++ anything) = m for discovery messages *)
Theorem C17_discovery_request_roundtrip :
  forall reqid h chunks tail,
    (reqid < 65536)%N -> length h = 20 -> Forall (fun c => c < 65536)%N chunks -> length chunks <= 255 ->
    parse (serialize (DiscReq reqid h chunks) ++ tail) = Ok (DiscReq reqid h chunks).
Proof. exact C17_req_lemma. Qed.
Print Assumptions C17_discovery_request_roundtrip.

Theorem C17_discovery_response_roundtrip :
  forall addr port reqid chunks tail,
    length addr = 4 -> (port < 65536)%N -> (reqid < 65536)%N ->
    Forall (fun c => c < 65536)%N chunks -> length chunks <= 255 ->
    parse (serialize (DiscResp addr port reqid chunks) ++ tail) = Ok (DiscResp addr port reqid chunks).
Proof. exact C17_resp_lemma. Qed.
Print Assumptions C17_discovery_response_roundtrip.

(** in particular out of the receiver's zero-padded 1024-byte buffer, into which
    every such message fits *)
Theorem C17_discovery_through_receive_buffer :
  forall m, msg_typed m ->
    match m with
    | DiscReq _ _ chunks | DiscResp _ _ _ chunks => length chunks <= 255
    | _ => False
    end ->
    parse (udp_buffer 1024 (serialize m)) = Ok m.
Proof. exact C17_buffer_lemma. Qed.
Print Assumptions C17_discovery_through_receive_buffer.

Example C17_case :
  parse (udp_buffer 1024 (serialize (DiscReq 513 ex_hash [0; 7; 300; 65535]%N)))
  = Ok (DiscReq 513 ex_hash [0; 7; 300; 65535]%N)
  /\ msg_typed (DiscReq 513 ex_hash [0; 7; 300; 65535]%N).
Proof. split; [vm_compute; reflexivity|]. repeat (constructor || reflexivity). Qed.

(** *** C18: file listings *)
Theorem C18_list_request_roundtrip :
  forall reqid h tail, (reqid < 65536)%N -> length h = 20 ->
    parse (serialize (ListReq reqid h) ++ tail) = Ok (ListReq reqid h).
Proof. exact parse_list_req. Qed.
Print Assumptions C18_list_request_roundtrip.

Theorem C18_list_response_roundtrip :
  forall reqid files tail,
    (reqid < 65536)%N -> (N.of_nat (length files) <= 65535)%N ->
    Forall (fun e => entry_typed e /\ length (e_name e) <= 255) files ->
    parse (serialize (ListResp reqid files) ++ tail) = Ok (ListResp reqid files).
Proof. exact C18_resp_lemma. Qed.
Print Assumptions C18_list_response_roundtrip.

Definition ex_entry : lfentry := mkEntry 9000000 3 4194304 2 ex_hash [x61; x2e; x74; x78; x74].
Definition ex_entry2 : lfentry := mkEntry 5 1 4194304 1 ex_hash [x62].
Example C18_case :
  parse (serialize (ListResp 65535 [ex_entry; ex_entry2]) ++ [x01; x02]) = Ok (ListResp 65535 [ex_entry; ex_entry2])
  /\ Forall (fun e => entry_typed e /\ length (e_name e) <= 255) [ex_entry; ex_entry2].
Proof.
  split; [vm_compute; reflexivity|].
  repeat (apply List.Forall_cons || apply List.Forall_nil); (split; [repeat (constructor || reflexivity)|simpl; lia]).
Qed.

(** *** C19: transfer messages *)
Theorem C19_open_roundtrip :
  forall h chunk cap tail, length h = 20 -> (chunk < 65536)%N -> (cap < 65536)%N ->
    parse (serialize (OpenReq h chunk cap) ++ tail) = Ok (OpenReq h chunk cap).
Proof. exact parse_open. Qed.
Print Assumptions C19_open_roundtrip.

Theorem C19_ack_roundtrip :
  forall offset tail, (offset < 4294967296)%N ->
    parse (serialize (Ack offset) ++ tail) = Ok (Ack offset).
Proof. exact parse_ack. Qed.
Print Assumptions C19_ack_roundtrip.

(** a data packet that fits the n-byte buffer (1029 in the program) comes back
    exactly, with its data clipped to what was sent *)
Theorem C19_data_roundtrip :
  forall offset data n, (offset < 4294967296)%N -> 5 + length data <= n ->
    parse_data (udp_clipped n (serialize (Data offset data))) = Ok (offset, data).
Proof. exact parse_data_ser. Qed.
Print Assumptions C19_data_roundtrip.

Theorem C19_split_first_packet :
  forall h size data, length h = 20 -> (size < 4294967296)%N ->
    split_packet (h ++ be 4 size ++ data) = Ok (h, size, data).
Proof. exact split_ok. Qed.
Print Assumptions C19_split_first_packet.

(** exactly when these two panic *)
Theorem C19_data_parse_panics_iff_short :
  forall datagram n, 5 <= n ->
    (is_panic (parse_data (udp_clipped n datagram)) <-> length datagram < 5)
    /\ ~ is_err (parse_data (udp_clipped n datagram)).
Proof. exact C19_panic_lemma. Qed.
Print Assumptions C19_data_parse_panics_iff_short.

Theorem C19_split_panics_iff_short :
  forall data, is_panic (split_packet data) <-> length data < 24.
Proof. exact split_panics. Qed.
Print Assumptions C19_split_panics_iff_short.

Example C19_case :
  parse (serialize (OpenReq ex_hash 300 1024) ++ []) = Ok (OpenReq ex_hash 300 1024)
  /\ parse_data (udp_clipped 1029 (serialize (Data 1000 [x01; x02; x03]))) = Ok (1000%N, [x01; x02; x03])
  /\ split_packet (ex_hash ++ be 4 77 ++ [x09]) = Ok (ex_hash, 77%N, [x09])
  /\ is_panic (split_packet [x01])
  /\ is_panic (parse_data (udp_clipped 1029 [x05; x00])).
Proof.
  split; [vm_compute; reflexivity|]. split; [vm_compute; reflexivity|].
  split; [vm_compute; reflexivity|].
  split; eexists; vm_compute; reflexivity.
Qed.

(** *** C20: what the receiver sees of any message, whatever its size *)
Theorem C20_discovery_counts_wrap :
  forall reqid h addr port chunks tail,
    (reqid < 65536)%N -> length h = 20 -> length addr = 4 -> (port < 65536)%N ->
    Forall (fun c => c < 65536)%N chunks ->
    parse (serialize (DiscReq reqid h chunks) ++ tail)
      = Ok (DiscReq reqid h (take (length chunks mod 256) chunks))
    /\ parse (serialize (DiscResp addr port reqid chunks) ++ tail)
      = Ok (DiscResp addr port reqid (take (length chunks mod 256) chunks)).
Proof. exact C20_disc_lemma. Qed.
Print Assumptions C20_discovery_counts_wrap.

Theorem C20_listing_counts_wrap_and_names_are_cut :
  forall reqid files tail,
    (reqid < 65536)%N -> Forall entry_typed files ->
    parse (serialize (ListResp reqid files) ++ tail)
    = Ok (ListResp reqid
           (map (fun e => mkEntry (e_size e) (e_count e) (e_chunk e) (e_down e) (e_hash e) (take 255 (e_name e)))
             (take (N.to_nat (N.of_nat (length files) mod 65536)) files))).
Proof. exact parse_list_resp. Qed.
Print Assumptions C20_listing_counts_wrap_and_names_are_cut.

(** 256 chunk numbers are read back as none, 257 as one *)
Example C20_case :
  parse (serialize (DiscReq 1 ex_hash (replicate 256 5%N))) = Ok (DiscReq 1 ex_hash [])
  /\ parse (serialize (DiscReq 1 ex_hash (replicate 257 5%N))) = Ok (DiscReq 1 ex_hash [5%N])
  /\ Forall (fun c => c < 65536)%N (replicate 257 5%N).
Proof.
  split; [vm_compute; reflexivity|]. split; [vm_compute; reflexivity|].
  apply Forall_replicate. lia.
Qed.

(** the size of every message on the wire *)
Theorem C20_wire_sizes :
  forall m, msg_typed m -> length (serialize m) = wire_size m.
Proof. exact serialize_length. Qed.
Print Assumptions C20_wire_sizes.

(** *** C21: parsing an arbitrary buffer *)
(** No buffer of at least 534 bytes (the program uses 1024) makes Parse panic,
    unless it claims to be a file listing ... *)
Theorem C21_only_listings_can_panic :
  forall ty rest, 534 <= length (ty :: rest) -> bN ty <> 3%N -> ~ is_panic (parse (ty :: rest)).
Proof. exact C21_total_lemma. Qed.
Print Assumptions C21_only_listings_can_panic.

(** ... in which case it panics exactly when the declared number of entries
    (bytes 3-4) does not fit in the rest of the buffer. *)
Theorem C21_listing_panics_iff_entries_do_not_fit :
  forall rest, 4 <= length rest ->
    (is_panic (parse (x03 :: rest)) <->
     ~ entries_fit (N.to_nat (unbe (take 2 (drop 2 rest)))) (drop 4 rest))
    /\ ~ is_err (parse (x03 :: rest)).
Proof. exact parse_type3. Qed.
Print Assumptions C21_listing_panics_iff_entries_do_not_fit.

(** errors are returned exactly for the other type bytes *)
Theorem C21_error_iff_unknown_type :
  forall ty rest, 534 <= length (ty :: rest) ->
    (is_err (parse (ty :: rest)) <-> bN ty ∉ [0; 1; 2; 3; 4; 6]%N).
Proof. exact C21_err_lemma. Qed.
Print Assumptions C21_error_iff_unknown_type.

(** whatever Parse returns is a well-typed message of the announced type *)
Theorem C21_parsed_messages_are_typed :
  forall ty rest m, parse (ty :: rest) = Ok m -> msg_typed m /\ within_limits m /\ msg_type m = bN ty.
Proof. exact C21_typed_lemma. Qed.
Print Assumptions C21_parsed_messages_are_typed.

(** a one-byte listing claiming 65535 entries crashes the parser; so does a
    listing whose 25 entries of 41 bytes need 1030 bytes *)
Example C21_case :
  is_panic (parse (udp_buffer 1024 [x03; x00; x00; xff; xff]))
  /\ (exists m, parse (udp_buffer 1024 [x03; x00; x00; x00; x18]) = Ok m)
  /\ is_panic (parse (udp_buffer 1024 [x03; x00; x00; x00; x19]))
  /\ is_err (parse (udp_buffer 1024 [x05]))
  /\ is_panic (parse (take 533 (udp_buffer 1024 (serialize (DiscReq 0 ex_hash (replicate 255 1%N)))))).
Proof. repeat split; eexists; vm_compute; reflexivity. Qed.

(** *** C22: the format is unambiguous *)
Theorem C22_buffers_determine_messages :
  forall m1 m2 t1 t2, msg_typed m1 -> msg_typed m2 -> within_limits m1 -> within_limits m2 ->
    ~ is_data m1 -> ~ is_data m2 ->
    serialize m1 ++ t1 = serialize m2 ++ t2 -> m1 = m2.
Proof. exact wire_unique. Qed.
Print Assumptions C22_buffers_determine_messages.

(** data packets are delimited by the datagram, so exact bytes are compared *)
Theorem C22_datagrams_determine_data_packets :
  forall o1 d1 o2 d2, (o1 < 4294967296)%N -> (o2 < 4294967296)%N ->
    serialize (Data o1 d1) = serialize (Data o2 d2) -> o1 = o2 /\ d1 = d2.
Proof. exact wire_data_unique. Qed.
Print Assumptions C22_datagrams_determine_data_packets.

Theorem C22_data_packets_are_not_control_messages :
  forall m o d t1 t2, msg_typed m -> ~ is_data m -> serialize m ++ t1 <> serialize (Data o d) ++ t2.
Proof. exact wire_data_other. Qed.
Print Assumptions C22_data_packets_are_not_control_messages.

Example C22_case :
  msg_typed (Ack 5) /\ within_limits (Ack 5) /\ ~ is_data (Ack 5)
  /\ msg_typed (ListResp 7 [ex_entry]) /\ within_limits (ListResp 7 [ex_entry]).
Proof.
  split; [reflexivity|]. split; [exact I|]. split; [intros []|].
  split; [repeat (constructor || reflexivity)|]. split; [vm_compute; discriminate|].
  repeat constructor; simpl; lia.
Qed.
