(** From [flu share] on one machine to [flu get] and [flu list] on another (C122). *)
From Verif Require Import EndCases PeerProofs2 CliProofs5 ServerCases CatalogueCases DownloadProofs4.

(** *** C122: what one machine shares, another gets.  [flu share] prints a hash; [flu get]
    with that hash, typed on another machine, starts a download that ends after a bounded
    number of steps with the same file in the download directory, and [flu list] then
    shows it as complete.  All in terms of what is typed and printed, the datagrams
    between the two daemons, and the files.  Partial: like C87, the two daemons are the
    only ones, no datagram is lost, and no chunk is ragged and longer than 1024 packets;
    the getting daemon does nothing else meanwhile. *)
Theorem C122_share_get_partial :
  forall cwd1 dir1 dl1 A1 s1 f1 e1 p1 l cs port env ifs1 host cwd2 dir2 dl2 A2 s2 f2 ifs own,
    let h := sha1 l in
    let name := name_of (abs cwd1 p1) in
    let p := join2 dl2 (take 255 name) in
    Z.of_nat cs = 4194304%Z ->
    srv_reached cwd1 dir1 dl1 A1 s1 f1 -> sv_port s1 = Z.of_N port -> u16 port -> ce_cwd e1 = cwd1 ->
    parent (abs cwd1 p1) <> dir1 -> file_at f1 (abs cwd1 p1) = Some l -> l <> [] -> (Z.of_nat (length l) <= 274877906944)%Z ->
    A1 !! h = None -> h <> blank ->
    length l < en_fuel env -> en_ifs env = Some ifs1 -> Forall if_wf ifs1 -> own_address ifs1 host -> en_wok env = true ->
    NoDup (en_order env) -> (forall k, k ∈ en_order env <-> k = h \/ A1 !! k <> None) ->
    srv_reached cwd2 dir2 dl2 A2 s2 f2 -> A2 !! h = None -> (forall k a, A2 !! k = Some a -> a_count a <> 0%Z) ->
    no_spare ifs -> own_address ifs own -> host <> own ->
    normal_name (take 255 name) -> f2 !! dl2 = Some NDir -> f2 !! p = None -> parent dl2 <> dir2 ->
    (forall i, ~ ragged cs (chunk_bytes l cs i) \/ first_empty (chunk_bytes l cs i) <= 1024) ->
    exists s1' f1',
      session true e1 s1 f1 [str "share"; p1] = (f1', Some s1', [], Shown (entry_text h (full_entry (abs cwd1 p1) (Z.of_nat (length l)) 4194304)))
      /\ let M := mkRemote cwd1 dir1 dl1 (<[h := full_entry (abs cwd1 p1) (Z.of_nat (length l)) 4194304]> A1) f1' env in
         let net := one_peer own h l cs name host port in
         is_up M s1' port /\ sv_uploads s1' = sv_uploads s1
         /\ (exists r data, found M port h r /\ h_addr r = host /\ described M port h data)
         /\ forall e2 r data, found M port h r -> described M port h data ->
              ce_ifs e2 = Some ifs -> selected (fun x => h_addr x <> own) (ce_resps e2) [r] -> ce_listing e2 = Some data ->
              exists s2' f2',
                session true e2 s2 f2 [str "get"; hash_string h] = (f2', Some s2', [], Shown (str "Flu transfer initiated" ++ nl))
                /\ (forall n out b, lexec own h net (mkL LCheck (sv_cat s2') f2' ∅) n out b ->
                      n <= 5 * ((length l + cs - 1) / cs) + 1
                      /\ (forall resps dg, l_pc b <> LDone -> net (l_pc b) resps dg -> is_Some (lstep own h resps dg b))
                      /\ (l_pc b = LDone ->
                            file_at (l_fs b) p = Some l
                            /\ forall e3, NoDup (ce_order e3) -> (forall k, k ∈ ce_order e3 <-> k = h \/ A2 !! k <> None) ->
                                 exists s3, session true e3 (set_cat s2' (l_cat b)) (l_fs b) [str "list"]
                                   = (l_fs b, Some s3, [], Shown (listing (<[h := full_entry p (Z.of_nat (length l)) 4194304]> A2) (ce_order e3)))))
                /\ (forall ra ip, from_ipv4 ra ip -> sv_uploads s1 !! (ip, u16_of_int (ua_port ra)) = None ->
                      exists n out b, lexec own h net (mkL LCheck (sv_cat s2') f2' ∅) n out b /\ l_pc b = LDone).
Proof. exact C122_lemma. Qed.
Print Assumptions C122_share_get_partial.
Example C122_case :
  srv_reached ex_cwd ex_dir ex_dl ∅ ex_new_srv ex_f0 /\ sv_port ex_new_srv = Z.of_N 61696 /\ parent (abs ex_cwd (bs "a")) <> ex_dir
  /\ file_at ex_f0 (abs ex_cwd (bs "a")) = Some (bs "abc") /\ own_address ex_ifs ex_own /\ own_address ex_ifs2 ex_host /\ ex_own <> ex_host
  /\ (forall k, k ∈ en_order (ex_env [habc]) <-> k = habc \/ (∅ : astate) !! k <> None)
  /\ normal_name (take 255 (name_of (abs ex_cwd (bs "a")))) /\ ex_f0 !! ex_dl = Some NDir
  /\ ex_f0 !! join2 ex_dl (take 255 (name_of (abs ex_cwd (bs "a")))) = None /\ parent ex_dl <> ex_dir
  /\ from_ipv4 ex_peer ex_host /\ sv_uploads ex_new_srv !! (ex_host, u16_of_int (ua_port ex_peer)) = None.
Proof. exact C122_case_lemma. Qed.
Example C122_run :
  shows_lines ex_shared.2 (ex_lines "/a") &&
  match session true ex_getter ex_new_srv ex_f0 [str "get"; str "a9993e364706816aba3e25717850c26c9cd0d89d"] with
  | (f, Some s, _, o) =>
      shows_lines o ["Flu transfer initiated"]
      && match ex_get 6 (mkL LCheck (sv_cat s) f ∅) [] with
         | Some (b, _) => match l_pc b with LDone => true | _ => false end
             && bool_decide (file_at (l_fs b) (bs "/dl/a") = Some (bs "abc"))
             && match session true ex_getter (set_cat s (l_cat b)) (l_fs b) [str "list"] with
                | (_, Some _, _, o) => shows_lines o (ex_lines "/dl/a")
                | _ => false
                end
         | None => false
         end
  | _ => false
  end = true.
Proof. exact C122_run_lemma. Qed.
(** any text that is printed as a hash is accepted as that hash *)
Theorem C122_printed_hash :
  forall h, length h = 20 -> hash_text (hash_string h) h.
Proof. exact hash_text_string. Qed.
Print Assumptions C122_printed_hash.
Example C122_printed : hash_string habc = str "a9993e364706816aba3e25717850c26c9cd0d89d".
Proof. vm_compute. reflexivity. Qed.
