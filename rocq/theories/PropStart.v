(** Properties of the metadata with which a download starts (C105). *)
From Verif Require Import StartProofs ServerCases.

(** *** C105: without a listing of exactly one file with the hash that was asked for, nothing is
    registered, in memory or on disk: the answer is an error, or (C22) the daemon dies *)
Theorem C105_refused :
  forall cwd dir dl A c f h ifs own resps r hs meta,
    reached cwd dir dl A c f -> A !! h = None -> no_spare ifs -> own_address ifs own -> selected (good own) resps (r :: hs) ->
    ~ (exists e, describes_one meta h e) ->
    (~ unparsable meta /\ exists w, run f (start_download (Some ifs) c h resps meta) = (f, Done (c, Err w)))
    \/ (unparsable meta /\ exists w, run f (start_download (Some ifs) c h resps meta) = (f, Died w)).
Proof. exact refused_lemma. Qed.
Print Assumptions C105_refused.
(** whatever arrives and whichever operations on files fail: every other file keeps its entry, the
    user's files are as before, and a download that starts has the hash that was asked for *)
Theorem C105_only_this_file :
  forall cwd dir dl A c f h ifs own resps meta f' c' res,
    reached cwd dir dl A c f -> A !! h = None -> hash_wf h -> no_spare ifs -> own_address ifs own ->
    execs f (start_download (Some ifs) c h resps meta) f' (Done (c', res)) ->
    same_user dir f f' /\ (forall k, k <> h -> c_index c' !! k = c_index c !! k)
    /\ forall own', res = Ok own' -> own' = own /\ exists e rc, describes_one meta h e /\ c_index c' !! h = Some rc
         /\ r_path rc = join2 dl (e_name e) /\ r_size rc = int_of_u64 (e_size e) /\ r_chunk rc = Z.of_N (e_chunk e).
Proof. exact only_this_lemma. Qed.
Print Assumptions C105_only_this_file.
(** the catalogue knows "abc"; a host is asked for another file and lists first a third one, then
    two files, then nothing, then a file with that hash *)
Definition ex_other : lfentry := Messages.mkEntry 5 2 3 0 (replicate 20 x09) (bs "other").
Definition ex_right : lfentry := Messages.mkEntry 5 2 3 0 hnew (bs "new").
Definition ex_start (es : list lfentry) : fs * outcome (cat * res (list byte)) :=
  run ex1.1.2 (start_download (Some ex_ifs) ex1.1.1 hnew ex_resps (Some (serialize (ListResp 7 es)))).
Definition refuses (x : fs * outcome (cat * res (list byte))) : bool :=
  match x.2 with Done (c, Err _) => bool_decide (c_index c !! hnew = None) | _ => false end.
Example C105_case : refuses (ex_start [ex_other]) && refuses (ex_start [ex_right; ex_other]) && refuses (ex_start []) = true
  /\ match (ex_start [ex_right]).2 with
     | Done (c, Ok own) => bool_decide (own = ex_own) && match c_index c !! hnew with
         | Some rc => bool_decide (r_path rc = bs "/dl/new") | None => false end
     | _ => false
     end = true.
Proof. split; vm_compute; reflexivity. Qed.
