(** Specification vocabulary for machines whose network may be down. *)
From Verif Require Export Dial CliSpec DownloadSpec.

(** [wants A e q ip]: to serve request [q] in a daemon with catalogue [A], a socket to [ip] is needed:
    for list, to the host asked about; for chims, to everybody; for get, to everybody
    and, if the file is not in the catalogue, to the first other host that has some of it *)
Inductive wants (A : astate) (e : cenv) : rpcreq -> list byte -> Prop :=
| wa_list q h : length q = 4 -> wants A e (RqList (mapped q) h) q
| wa_chims h : wants A e (RqChims h) [xff; xff; xff; xff]
| wa_get h ifs own : ce_ifs e = Some ifs -> own_address ifs own -> wants A e (RqGet h) [xff; xff; xff; xff]
| wa_meta h ifs own r hs : ce_ifs e = Some ifs -> own_address ifs own -> A !! h = None ->
    selected (good own) (ce_resps e) (r :: hs) -> wants A e (RqGet h) (h_addr r).
(** addresses of the interfaces as the net package makes them *)
Definition plain_ifs (e : cenv) : Prop := forall ifs, ce_ifs e = Some ifs -> no_spare ifs.

(** [loop_ends d own h resps dg a n f]: with the network [d] the loop of a download dies in step [n]+1
    from [a], when the disk is [f]; nothing else runs *)
Inductive loop_ends (d : routes) (own : list byte) (h : hash) (resps : list hostresp) (dg : option (list (list byte))) : lworld -> nat -> fs -> Prop :=
| len_now a f w : run (l_fs a) (loop_step_on d own h resps dg (l_pc a) (l_cat a) (l_active a)) = (f, Died w) -> loop_ends d own h resps dg a 0 f
| len_later a c' D' pc' out f' n f : run (l_fs a) (loop_step_on d own h resps dg (l_pc a) (l_cat a) (l_active a)) = (f', Done (c', D', pc', out)) ->
    loop_ends d own h resps dg (mkL pc' c' f' D') n f -> loop_ends d own h resps dg a (S n) f.
