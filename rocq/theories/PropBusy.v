(** A download while the daemon is used for other things, and passing the file on (C123). *)
From Verif Require Import BusyProofs EndCases CliProofs5 PeerProofs2 ServerCases CatalogueCases.

(** *** C123: a download is not disturbed by other use of the daemon, and the machine that
    got the file passes it on.  [busy] lets anything that leaves the entry and the file
    alone happen between two steps of the download: datagrams, uploads, commands, other
    programs.  However they interleave, the download takes the same bounded number of its
    own steps, is never stuck, and ends with the file complete; the daemon then answers
    for it exactly like the one it came from ([shares] is the hypothesis under which C87
    and C122 get a file).  Partial: as in C87, one daemon holds the file, no datagram of
    the download is lost and no chunk is ragged and longer than 1024 packets; a step of the
    download is not itself interrupted. *)
Theorem C123_busy_download_partial :
  forall cwd dir dl A s f e h content cs name own host port ifs r M data,
    let p := join2 dl (take 255 name) in
    srv_reached cwd dir dl A s f -> A !! h = None -> no_spare ifs -> own_address ifs own -> host <> own ->
    content <> [] -> h <> blank -> (length content + cs - 1) / cs <= N.to_nat 65536 -> u16 port ->
    normal_name (take 255 name) -> f !! dl = Some NDir -> f !! p = None -> parent dl <> dir ->
    (forall i, ~ ragged cs (chunk_bytes content cs i) \/ first_empty (chunk_bytes content cs i) <= 1024) ->
    shares M h content cs name host -> found M port h r -> described M port h data ->
    ce_ifs e = Some ifs -> selected (fun x => h_addr x <> own) (ce_resps e) [r] -> ce_listing e = Some data ->
    let net := one_peer own h content cs name host port in
    exists s' f', session true e s f [str "get"; hash_string h] = (f', Some s', [], Shown (str "Flu transfer initiated" ++ nl))
      /\ (forall n b, busy cwd dir dl own h p net (mkBusy s' f' LCheck ∅) n b ->
            n <= 5 * ((length content + cs - 1) / cs) + 1
            /\ (forall resps dg, b_pc b <> LDone -> net (b_pc b) resps dg ->
                  is_Some (lstep own h resps dg (mkL (b_pc b) (sv_cat (b_srv b)) (b_fs b) (b_active b))))
            /\ (b_pc b = LDone ->
                  file_at (b_fs b) p = Some content
                  /\ exists A', srv_reached cwd dir dl A' (b_srv b) (b_fs b)
                       /\ A' !! h = Some (full_entry p (Z.of_nat (length content)) (Z.of_nat cs))
                       /\ forall env, en_ifs env = Some ifs -> Forall if_wf ifs -> length content < en_fuel env -> en_wok env = true ->
                            NoDup (en_order env) -> (forall k, k ∈ en_order env <-> A' !! k <> None) ->
                            shares (mkRemote cwd dir dl A' (b_fs b) env) h content cs (take 255 name) own))
      /\ (forall sM ra ip n b, is_up M sM port -> from_ipv4 ra ip -> sv_uploads sM !! (ip, u16_of_int (ua_port ra)) = None ->
            busy cwd dir dl own h p net (mkBusy s' f' LCheck ∅) n b ->
            exists n' b', busy cwd dir dl own h p net (mkBusy s' f' LCheck ∅) n' b' /\ b_pc b' = LDone).
Proof. exact busy_lemma. Qed.
Print Assumptions C123_busy_download_partial.
Example C123_case :
  srv_reached ex_cwd ex_dir ex_dl ∅ ex_new_srv ex_f0 /\ no_spare ex_ifs2 /\ own_address ex_ifs2 ex_host /\ ex_own <> ex_host
  /\ habc <> blank /\ normal_name (take 255 (bs "a")) /\ ex_f0 !! ex_dl = Some NDir /\ ex_f0 !! join2 ex_dl (take 255 (bs "a")) = None
  /\ parent ex_dl <> ex_dir /\ shares ex_rem habc (bs "abc") ex_cs (bs "a") ex_own /\ is_up ex_rem ex_srv 61696
  /\ from_ipv4 ex_peer ex_host /\ sv_uploads ex_srv !! (ex_host, u16_of_int (ua_port ex_peer)) = None.
Proof.
  destruct C87_case_lemma as (_ & H1 & H2 & H3 & H4 & _ & H5 & _ & H6 & _ & H7 & H8 & H9 & H10).
  split; [apply sr_start; exact ex_reached0|]. split; [exact H1|]. split; [exact H2|]. split; [exact H3|]. split; [exact H4|]. split; [exact H5|].
  split; [vm_compute; reflexivity|]. split; [vm_compute; reflexivity|]. split; [exact H6|]. split; [exact H7|]. split; [exact H8|]. split; [exact H9|exact H10].
Qed.
(** what may happen meanwhile: any datagram is handled, an upload goes on, [list],
    [share], [chims] and refused commands are obeyed, and other programs change files *)
Theorem C123_message_meanwhile :
  forall cwd dir dl A h p s f e buffer ra s' f' ds r,
    srv_reached cwd dir dl A s f -> NoDup (en_order e) -> (forall k, k ∈ en_order e <-> A !! k <> None) ->
    run f (handle_message e s buffer ra) = (f', Done (s', ds, r)) -> besides cwd dir dl h p s f s' f'.
Proof. exact besides_message. Qed.
Print Assumptions C123_message_meanwhile.
Theorem C123_upload_meanwhile :
  forall cwd dir dl A h p s f k u v u' ps,
    srv_reached cwd dir dl A s f -> sv_uploads s !! k = Some u -> sstep u v = SGo u' ps -> besides cwd dir dl h p s f (set_upload s k u') f.
Proof. exact besides_worker. Qed.
Print Assumptions C123_upload_meanwhile.
Theorem C123_list_meanwhile :
  forall cwd dir dl A h p s f e,
    srv_reached cwd dir dl A s f -> NoDup (ce_order e) -> (forall k, k ∈ ce_order e <-> A !! k <> None) ->
    exists s' o, session true e s f [str "list"] = (f, Some s', [], o) /\ besides cwd dir dl h p s f s' f.
Proof. exact besides_list. Qed.
Print Assumptions C123_list_meanwhile.
Theorem C123_share_meanwhile :
  forall cwd dir dl A h p s f e q,
    srv_reached cwd dir dl A s f -> A !! h <> None -> parent p <> dir -> parent (parent p) <> dir -> ce_cwd e = cwd ->
    (forall l, file_at f (abs cwd q) = Some l -> small l) ->
    exists s' f' o, session true e s f [str "share"; q] = (f', Some s', [], o) /\ besides cwd dir dl h p s f s' f'.
Proof. exact besides_share. Qed.
Print Assumptions C123_share_meanwhile.
Theorem C123_chims_meanwhile :
  forall cwd dir dl A h p s f e argv k,
    srv_reached cwd dir dl A s f -> asks argv (RqChims k) -> Forall (fun r => length (h_addr r) = 4) (ce_resps e) ->
    exists s' d o, session true e s f argv = (f, Some s', [d], o) /\ besides cwd dir dl h p s f s' f.
Proof. exact besides_chims. Qed.
Print Assumptions C123_chims_meanwhile.
Theorem C123_refused_meanwhile :
  forall cwd dir dl A h p s f e argv code,
    srv_reached cwd dir dl A s f -> client_parse argv = PRefuse code ->
    (exists code', session true e s f argv = (f, Some s, [], Refused code')) /\ besides cwd dir dl h p s f s f.
Proof. exact besides_refused. Qed.
Print Assumptions C123_refused_meanwhile.
Theorem C123_other_programs_meanwhile :
  forall cwd dir dl A h p s f f',
    srv_reached cwd dir dl A s f -> f' !! dir = f !! dir -> (forall q, parent q = dir -> f' !! q = f !! q) ->
    f' !! p = f !! p -> f' !! parent p = f !! parent p -> besides cwd dir dl h p s f s f'.
Proof. exact besides_outside. Qed.
Print Assumptions C123_other_programs_meanwhile.
(** the download of /a, during which another program writes /b, it is shared, and [list]
    is typed; afterwards the daemon lists both, and tells a third one that it has the
    only chunk *)
Example C123_run :
  match session true ex_getter ex_new_srv ex_f0 [str "get"; str "a9993e364706816aba3e25717850c26c9cd0d89d"] with
  | (f, Some s, _, _) =>
      match ex_get 3 (mkL LCheck (sv_cat s) f ∅) [] with
      | Some (mkL pc c f1 D, _) =>
          match session true (mkCenv ex_cwd [] None [] None ex_why) (set_cat s c) (<[bs "/b" := NFile (bs "xyz")]> f1) [str "share"; bs "b"] with
          | (f2, Some s2, _, Shown _) =>
              match session true (mkCenv ex_cwd [habc; sha1 (bs "xyz")] None [] None ex_why) s2 f2 [str "list"] with
              | (f3, Some s3, _, Shown _) =>
                  match ex_get 3 (mkL pc (sv_cat s3) f3 D) [] with
                  | Some (mkL LDone c4 f4 _, _) =>
                      bool_decide (file_at f4 (bs "/dl/a") = Some (bs "abc"))
                      && match session true ex_getter (set_cat s3 c4) f4 [str "list"] with
                         | (_, Some _, _, o) => shows_lines o (ex_lines "/dl/a")
                         | _ => false
                         end
                      && match run f4 (handle_message (ex_env [habc; sha1 (bs "xyz")]) (set_cat s3 c4) (udp_buffer 1024 (serialize (DiscReq 9 habc []))) ex_peer) with
                         | (_, Done (_, [d], _)) => match parse (udp_buffer 1024 (dg_data d)) with Ok (DiscResp _ _ q cs) => bool_decide (cs = [0; 0] /\ q = 9)%N | _ => false end
                         | _ => false
                         end
                  | _ => false
                  end
              | _ => false
              end
          | _ => false
          end
      | None => false
      end
  | _ => false
  end = true.
Proof. vm_compute. reflexivity. Qed.
