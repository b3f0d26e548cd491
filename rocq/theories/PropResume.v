(** Properties of downloads that are interrupted by a kill (C106). *)
From Verif Require Import ResumeProofs.

(** *** C106: the daemon is killed at some point of a download from an honest host.  [sent] are the
    chunks asked for until then.  If the progress file has its whole length afterwards, the daemon
    starts again and downloads the rest; of the chunks saved before none is asked for again, and of
    the others at most the one in transit is not, because it is there.  Otherwise the download
    cannot be completed: whatever hosts do and however often the daemon is started (and killed)
    again, it does not end.
    Missing: a chunk outside the guard of C63, more than 65536 chunks (C64), names that are not valid
    UTF-8 (C31), and calls made by other goroutines meanwhile. *)
Theorem C106_resumes_partial :
  forall cwd dir dl A c f h a cs content own host port n out b f',
    reached cwd dir dl A c f -> A !! h = Some a ->
    0 < cs -> a_chunk a = Z.of_nat cs -> a_count a = Z.of_nat ((length content + cs - 1) / cs) -> (a_count a <= 65536)%Z ->
    can_write f (a_path a) -> parent (a_path a) <> dir -> right_so_far content cs f a ->
    (forall i, ~ ragged cs (chunk_bytes content cs i) \/ first_empty (chunk_bytes content cs i) <= 1024) ->
    valid_utf8 dir -> (forall h' a', A !! h' = Some a' -> valid_utf8 (a_path a')) ->
    lexec own h (honest own host port content cs) (mkL LCheck c f ∅) n out b ->
    stopped own h (honest own host port content cs) b f' ->
    exists sent rest, todo a = sent ++ rest /\ out = map (request host port h) sent /\
     ((whole_progress dir h (a_count a) f' /\ exists rest', (rest' = rest \/ exists i, rest = i :: rest')
         /\ continues cwd dir dl h content cs (a_path a) (default [] (file_at f (a_path a))) rest' f')
      \/ (~ whole_progress dir h (a_count a) f' /\ forall w, attempts h cwd dir dl f' w -> l_pc w <> LDone)).
Proof. exact C106_lemma. Qed.
Print Assumptions C106_resumes_partial.
(** the second case exists in every download: killed inside the write of the progress file, the
    daemon cannot even be repaired (C33) *)
Theorem C106_killed_while_saving_refuted :
  forall cwd dir dl A c f h a cs content own host port,
    reached cwd dir dl A c f -> A !! h = Some a -> todo a <> [] ->
    0 < cs -> a_chunk a = Z.of_nat cs -> a_count a = Z.of_nat ((length content + cs - 1) / cs) -> (a_count a <= 65536)%Z ->
    can_write f (a_path a) -> parent (a_path a) <> dir -> right_so_far content cs f a ->
    (forall i, ~ ragged cs (chunk_bytes content cs i) \/ first_empty (chunk_bytes content cs i) <= 1024) ->
    valid_utf8 dir -> host <> own ->
    exists n out b f', lexec own h (honest own host port content cs) (mkL LCheck c f ∅) n out b
      /\ stopped own h (honest own host port content cs) b f' /\ ~ whole_progress dir h (a_count a) f' /\ stuck cwd dir dl h f'.
Proof. exact C106_torn_lemma. Qed.
Print Assumptions C106_killed_while_saving_refuted.
(** a five-byte file in chunks of three, of which the second is there; killed after one byte of the
    first, the download goes on; with a progress file of eight bytes the daemon dies *)
Example C106_case :
  exists n out b f', lexec ex_own hnew (honest ex_own ex_host 61696 (bs "abcde") 3) (mkL LCheck ex3.1.1 ex3.1.2 ∅) n out b
    /\ stopped ex_own hnew (honest ex_own ex_host 61696 (bs "abcde") 3) b f' /\ ~ whole_progress ex_dir hnew 2 f' /\ stuck ex_cwd ex_dir ex_dl hnew f'.
Proof.
  destruct C63_case_lemma as (H1 & H2 & H3 & H4 & H5 & H6 & H7 & H8 & H9).
  apply (C106_killed_while_saving_refuted ex_cwd ex_dir ex_dl A3 _ _ hnew ex_new 3 (bs "abcde") ex_own ex_host 61696);
    [exact H1|exact H2|rewrite H9; discriminate|lia|exact H3|exact H4| |exact H5|exact H6|exact H7|exact H8| |].
  - apply Z.leb_le. vm_compute. reflexivity.
  - apply sanitize_id_iff. vm_compute. reflexivity.
  - apply (bool_decide_unpack _). vm_compute. exact I.
Qed.
Definition ex_restart (f : fs) : option lworld :=
  match run f (open_cat 1 1 ex_cwd ex_dir ex_dl) with (_, Done (Ok c)) => Some (mkL LCheck c f ∅) | _ => None end.
Example C106_run :
  match ex_restart (<[bs "/dl/new" := NFile [x61; x00; x00; x64; x65]]> ex3.1.2) with
  | Some a => match DownloadProofs4.ex_loop 7 a [] with
      | Some (b, out) => match l_pc b with LDone => true | _ => false end
          && bool_decide (file_at (l_fs b) (bs "/dl/new") = Some (bs "abcde")) && (length out =? 1)
      | None => false
      end
  | None => false
  end
  && match file_at ex3.1.2 (prog_path ex_dir hnew) with
     | Some l => match ex_restart (<[prog_path ex_dir hnew := NFile (take 8 l)]> ex3.1.2) with
         | Some a => match DownloadProofs4.ex_loop 1 a [] with Some _ => false | None => true end
         | None => false
         end
     | None => false
     end = true.
Proof. vm_compute. reflexivity. Qed.
