(** Properties of the commands that end the daemon (C128). *)
From Verif Require Import StopProofs CliProofs5 DownloadProofs4 ServerCases CatalogueCases.

(** *** C128: exactly which commands end the daemon, with any network [d].  Refused command lines never do;
    share, clean, list of the own files and (with a network) chims never do *)
Theorem C128_which_commands_end_the_daemon :
  forall cwd dir dl A s f d e argv,
    srv_reached cwd dir dl A s f -> plain_ifs e -> ce_cwd e = cwd -> NoDup (ce_order e) -> (forall h, h ∈ ce_order e <-> A !! h <> None) ->
    (forall h a, A !! h = Some a -> parent (a_path a) <> dir) -> (forall p l, argv = [str "share"; p] -> file_at f (abs cwd p) = Some l -> small l) ->
    (session_on d true e s f argv).1.1.2 = None
    <-> exists q, asks (meant argv) q /\ (ends_daemon A e q \/ exists ip, wants A e q ip /\ d ip = false).
Proof. exact C128_lemma. Qed.
Print Assumptions C128_which_commands_end_the_daemon.
(** the daemon has "abc" and two thirds of another file.  [hother] is a third file; the answers are: none, one that the
    parser cannot read, a description with chunks of 0 bytes, one with 2^63+8 bytes in chunks of 3, one that is right *)
Definition hother : hash := replicate 20 x09.
Definition ex_stop (ifs : option (list ifaddr)) (answer : option (list byte)) (d : routes) (argv : list text) : bool :=
  match session_on d true (mkCenv ex_cwd [hnew; habc] ifs ex_resps answer ex_why) ex_srv ex3.1.2 argv with (_, None, _, _) => true | _ => false end.
Definition ex_describe (size chunk : N) : option (list byte) := Some (serialize (ListResp 7 [Messages.mkEntry size 2 chunk 0 hother (bs "other")])).
Example C128_case :
  let up := fun _ : list byte => true in let down := fun _ : list byte => false in
  let get := [str "get"; hash_string hother] in let net := Some ex_ifs in let junk := Some (x03 :: replicate 1023 xff) in
  (ex_stop net None up (map str ["list"; "fe80::1"]%string) && ex_stop net junk up (map str ["list"; "192.168.1.9"]%string)
   && ex_stop (Some []) None up get && ex_stop None None up get && ex_stop (Some []) None up [str "get"; hash_string hnew]
   && ex_stop net junk up get && ex_stop net (ex_describe 5 0) up get && ex_stop net (ex_describe 9223372036854775816 3) up get
   && ex_stop net (ex_describe 5 3) down get && ex_stop net None down [str "chims"]
   && negb (ex_stop net (ex_describe 5 3) up get || ex_stop net None up get || ex_stop net junk up [str "get"; hash_string hnew]
       || ex_stop net None up (map str ["list"; "192.168.1.9"]%string) || ex_stop net None up [str "chims"]
       || ex_stop None junk down [str "clean"] || ex_stop None junk down [str "list"] || ex_stop None junk down [str "share"; bs "/no"]
       || ex_stop None junk down [str "get"] || ex_stop net None up (map str ["list"; "1.2.3.4"; "07"; "x"]%string) || ex_stop None junk down [str "list"; bs "nowhere"])) = true.
Proof. vm_compute. reflexivity. Qed.

(** *** C129: exactly which commands crash the client while a daemon listens; none waits forever *)
Theorem C129_which_commands_crash_the_client :
  forall cwd dir dl A s f d e argv,
    srv_reached cwd dir dl A s f -> plain_ifs e -> ce_cwd e = cwd -> NoDup (ce_order e) -> (forall h, h ∈ ce_order e <-> A !! h <> None) ->
    (forall h a, A !! h = Some a -> parent (a_path a) <> dir) -> (forall p l, argv = [str "share"; p] -> file_at f (abs cwd p) = Some l -> small l) ->
    Forall (fun r => length (h_addr r) = 4) (ce_resps e) ->
    (session_on d true e s f argv).2 <> Waits
    /\ ((session_on d true e s f argv).2 = Crashed
        <-> argv = [str "get"]
            \/ exists q, asks (meant argv) q /\ client_crashes cwd A f e q /\ forall ip, wants A e q ip -> d ip = true).
Proof. exact C129_lemma. Qed.
Print Assumptions C129_which_commands_crash_the_client.
(** "/empty" is an empty file, which is shared first and then listed; a host lists a file without chunks; another
    reports one chunk bound *)
Definition ex_crash (f : fs) (s : server) (answer : option (list byte)) (resps : list hostresp) (argv : list text) : bool :=
  match session_on (fun _ => true) true (mkCenv ex_cwd [hnew; habc; sha1 []] (Some ex_ifs) resps answer ex_why) s f argv with (_, _, _, Crashed) => true | _ => false end.
Definition ex_count (count : N) : option (list byte) := Some (serialize (ListResp 7 [Messages.mkEntry 5 count 3 0 hother (bs "other")])).
Definition ex_bounds (cs : list N) : list hostresp := map (fun r => mkResp (h_addr r) (h_port r) (h_reqid r) cs) ex_resps.
Example C129_case :
  let f := <[bs "/empty" := NFile []]> ex3.1.2 in let chims := [str "chims"] in let host := map str ["list"; "192.168.1.9"]%string in
  (ex_crash f ex_srv None [] [str "share"; bs "/empty"] && negb (ex_crash f ex_srv None [] [str "share"; bs "/none"])
   && match session_on (fun _ => true) true (ex_cenv None) ex_srv f [str "share"; bs "/empty"] with
      | (f', Some s', _, _) => ex_crash f' s' None [] [str "list"] && negb (ex_crash f' s' None [] [str "share"; bs "/empty"]) && negb (ex_crash f' s' None [] [str "clean"])
      | _ => false end
   && ex_crash f ex_srv (ex_count 0) [] host && negb (ex_crash f ex_srv (ex_count 2) [] host)
   && ex_crash f ex_srv None (ex_bounds [4]) chims && negb (ex_crash f ex_srv None (ex_bounds [4; 5]) chims)
   && ex_crash f ex_srv None [] [str "get"] && negb (ex_crash f ex_srv None [] [str "get"; bs "07"]))%N = true.
Proof. vm_compute. reflexivity. Qed.
