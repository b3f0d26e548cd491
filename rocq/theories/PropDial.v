(** Properties of machines whose network may be down (C120-C121). *)
From Verif Require Import DialProofs CliProofs5 ServerCases CatalogueCases.

(** *** C120: a command that cannot reach the network is answered with an error.  The
    client does print one, but the daemon is gone: log.Fatal is called for a socket that
    cannot be opened.  Nothing on disk has changed (so C29 says what a restart finds). *)
Theorem C120_daemon_gone_refuted :
  forall cwd dir dl A s f d e argv q ip,
    reached cwd dir dl A (sv_cat s) f -> plain_ifs e -> asks argv q -> wants A e q ip -> d ip = false ->
    session_on d true e s f argv = (f, None, [], Failed).
Proof. exact C120_dies_lemma. Qed.
Print Assumptions C120_daemon_gone_refuted.
(** in all other cases the state of the network makes no difference *)
Theorem C120_others_unaffected_partial :
  forall cwd dir dl A s f d e argv q,
    reached cwd dir dl A (sv_cat s) f -> plain_ifs e -> asks argv q -> (forall ip, wants A e q ip -> d ip = true) ->
    session_on d true e s f argv = session true e s f argv.
Proof. exact C120_same_lemma. Qed.
Print Assumptions C120_others_unaffected_partial.
(** without any network: list, share and clean work; chims, list of a host and get end
    the daemon.  With a network in which only that host cannot be reached, chims works. *)
Definition ex_off (argv : list string) : fs * option server * list dgram * cend :=
  session_on (fun _ => false) true (ex_cenv None) ex_srv ex3.1.2 (map str argv).
Definition stays (r : fs * option server * list dgram * cend) : bool :=
  match r with (_, Some _, _, Shown _) => true | _ => false end.
Definition ends (r : fs * option server * list dgram * cend) : bool :=
  match r with (_, None, _, Failed) => true | _ => false end.
Example C120_case :
  stays (ex_off ["list"]) && stays (ex_off ["clean"]) && ends (ex_off ["chims"]) && ends (ex_off ["list"; "192.168.1.9"])
  && ends (ex_off ["get"; "aaf4c61ddcc5e8a2dabede0f3b482cd9aea9434d"])
  && stays (session_on (fun ip => negb (bool_decide (ip = [xc0; xa8; x01; x09]))) true (ex_cenv None) ex_srv ex3.1.2 [str "chims"])
  && ends (session_on (fun ip => negb (bool_decide (ip = [xc0; xa8; x01; x09]))) true (ex_cenv None) ex_srv ex3.1.2 (map str ["list"; "192.168.1.9"]))
  && stays (session_on (fun ip => negb (bool_decide (ip = [xc0; xa8; x01; x09]))) true (ex_cenv None) ex_srv ex3.1.2 [str "get"; hash_string hnew]) = true.
Proof. vm_compute. reflexivity. Qed.

(** *** C121: a download waits while the network is down.  False: as soon as the loop looks for
    hosts for the next missing chunk and the broadcast socket cannot be opened, the
    daemon ends (three steps from the beginning of a round), whatever else happens.  The
    disk is as it was. *)
Theorem C121_loop_ends_refuted :
  forall cwd dir dl A c f h a D d own resps dg,
    reached cwd dir dl A c f -> A !! h = Some a -> (a_count a <= 65536)%Z ->
    (exists i, (Z.of_N i < a_count a)%Z /\ i ∉ a_held a) -> d [xff; xff; xff; xff] = false ->
    loop_ends d own h resps dg (mkL LCheck c f D) 2 f.
Proof. exact C121_lemma. Qed.
Print Assumptions C121_loop_ends_refuted.
(** while the network is up, and the hosts that answered can be reached, the loop is the one
    described by C63, C87 and C114 *)
Theorem C121_connected_partial :
  forall d own h resps dg pc c D, d [xff; xff; xff; xff] = true -> (forall r, r ∈ resps -> d (h_addr r) = true) ->
    (forall start r hs, pc = LChunk start (r :: hs) -> r ∈ resps) ->
    loop_step_on d own h resps dg pc c D = loop_step own h resps dg pc c D.
Proof. exact C121_connected_lemma. Qed.
Print Assumptions C121_connected_partial.
(** the download of hnew, of which chunk 0 is missing, in the daemon of ServerCases.v *)
Example C121_case :
  A3 !! hnew = Some (hold entry_new 1) /\ bool_decide (0%N ∈ a_held (hold entry_new 1)) = false /\ (a_count (hold entry_new 1) = 2)%Z.
Proof. split; [apply lookup_insert|]. split; vm_compute; reflexivity. Qed.
