(** What share printed stays in the list (C124). *)
From Verif Require Import StayProofs EndCases CliProofs5 PeerProofs2 ServerCases CatalogueCases.

(** *** C124: what share printed stays in the list.  Whatever text [share] prints for a
    file, every later [list] prints among the others, until [clean] is typed after the
    file was changed or removed: whatever other commands are typed, datagrams arrive,
    uploads and downloads go on and files change, and however often the daemon is stopped
    and started.  Partial: the daemon is not stopped in the middle of a call (C32), the
    names in the catalogue are valid UTF-8 when it is started (C31), metadata from peers
    is sound (C40, C41), and no empty file is shared (the client then panics, C68). *)
Theorem C124_share_stays_listed_partial :
  forall cwd dir dl A s f e q s1 f1 ds t,
    srv_reached cwd dir dl A s f -> ordinary cwd A f e [str "share"; q] ->
    session true e s f [str "share"; q] = (f1, Some s1, ds, Shown t) ->
    exists l, file_at f (abs cwd q) = Some l /\ let a := full_entry (abs cwd q) (Z.of_nat (length l)) 4194304 in
      t = entry_text (sha1 l) a /\
      forall s2 f2, onward cwd dir dl (sha1 l) (abs cwd q) l s1 f1 s2 f2 ->
        exists A2, srv_reached cwd dir dl A2 s2 f2 /\ A2 !! sha1 l = Some a
          /\ forall e2, NoDup (ce_order e2) -> (forall k, k ∈ ce_order e2 <-> A2 !! k <> None) -> (forall k b, A2 !! k = Some b -> a_count b <> 0%Z) ->
               exists s3 x y, session true e2 s2 f2 [str "list"] = (f2, Some s3, [], Shown (x ++ t ++ y)).
Proof. exact stay_lemma. Qed.
Print Assumptions C124_share_stays_listed_partial.
(** no command but [clean] removes or changes an entry of the catalogue *)
Theorem C124_commands_keep_entries :
  forall cwd dir dl A s f e argv s' f' ds o,
    srv_reached cwd dir dl A s f -> ordinary cwd A f e argv -> argv <> [str "clean"] ->
    session true e s f argv = (f', Some s', ds, o) ->
    exists A', srv_reached cwd dir dl A' s' f' /\ forall h a, A !! h = Some a -> A' !! h = Some a.
Proof. exact command_keeps. Qed.
Print Assumptions C124_commands_keep_entries.
Example C124_case :
  srv_reached ex_cwd ex_dir ex_dl ∅ ex_new_srv ex_f0 /\ ordinary ex_cwd ∅ ex_f0 ex_sharer [str "share"; bs "a"].
Proof.
  split; [apply sr_start; exact ex_reached0|]. split; [reflexivity|]. split; [constructor|]. split.
  { intros k. cbn [ex_sharer ce_order]. rewrite lookup_empty. split; [intros H; inversion H|done]. }
  split; [|done]. intros q l E Hl. injection E as <-. assert (file_at ex_f0 (abs ex_cwd (bs "a")) = Some (bs "abc")) as E2 by (vm_compute; reflexivity).
  rewrite E2 in Hl. injection Hl as <-. unfold small. cbn [length bs]. vm_compute. reflexivity.
Qed.
(** /a is shared; /b is written and shared; the daemon is stopped and started; [clean] is
    typed; [list] shows both, whichever comes first *)
Example C124_run :
  match session true ex_sharer ex_new_srv ex_f0 [str "share"; bs "a"] with
  | (f1, Some s1, _, o1) =>
      shows_lines o1 (ex_lines "/a") &&
      match session true (mkCenv ex_cwd [habc] None [] None ex_why) s1 (<[bs "/b" := NFile (bs "xyz")]> f1) [str "share"; bs "b"] with
      | (f2, Some s2, _, Shown t2) =>
          match run f2 (open_cat 8 10 ex_cwd ex_dir ex_dl) with
          | (f3, Done (Ok c3)) =>
              let e := mkCenv ex_cwd [sha1 (bs "xyz"); habc] None [] None ex_why in
              match session true e (new_server 61696 c3) f3 [str "clean"] with
              | (f4, Some s4, _, Shown _) =>
                  match session true e s4 f4 [str "list"], o1 with
                  | (_, Some _, _, Shown t), Shown t1 => bool_decide (t = t2 ++ t1)
                  | _, _ => false
                  end
              | _ => false
              end
          | _ => false
          end
      | _ => false
      end
  | _ => false
  end = true.
Proof. vm_compute. reflexivity. Qed.
(** [clean] after a change of the file removes it from the list *)
Example C124_changed :
  match session true ex_sharer ex_new_srv ex_f0 [str "share"; bs "a"] with
  | (f1, Some s1, _, _) =>
      match session true (mkCenv ex_cwd [habc] None [] None ex_why) s1 (<[bs "/a" := NFile (bs "xyz")]> f1) [str "clean"] with
      | (f2, Some s2, _, Shown _) =>
          match session true (mkCenv ex_cwd [] None [] None ex_why) s2 f2 [str "list"] with
          | (_, Some _, _, Shown t) => bool_decide (t = [])
          | _ => false
          end
      | _ => false
      end
  | _ => false
  end = true.
Proof. vm_compute. reflexivity. Qed.
