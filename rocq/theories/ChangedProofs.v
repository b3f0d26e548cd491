(** Proofs about files that change after they were shared, or while they are shared. *)
From Verif Require Export PeerProofs2 ChangedSpec.

Lemma changed_is_up M s port h content cs name ip p content' : shares M h content cs name ip -> p = path_of M h -> is_up M s port ->
  parent p <> rm_dir M -> p <> rm_dir M -> is_up (overwritten M p content') s port.
Proof.
  intros _ -> [H1 H2] Hp Hd. split; [|done]. cbn. eapply sr_outside; [exact H1| |].
  - apply lookup_insert_ne. done.
  - intros q Hq. apply lookup_insert_ne. intros <-. done.
Qed.
Lemma changed_shares M h content cs name ip content' : shares M h content cs name ip -> length content' = length content ->
  shares (overwritten M (path_of M h) content') h content' cs name ip.
Proof.
  intros (d & addrs & H1 & H2 & H3 & H4 & H5) Hl. assert (path_of M h = d ++ slash :: name) as -> by (unfold path_of; rewrite H1; done).
  exists d, addrs. cbn. rewrite Hl. split; [done|]. split; [done|]. split; [unfold file_at; rewrite lookup_insert; done|]. done.
Qed.
Lemma C118_lemma cwd dir dl A c f h content content' cs name own host port ifs M s ra ip :
  let p := join2 dl (take 255 name) in
  reached cwd dir dl A c f -> A !! h = None -> no_spare ifs -> own_address ifs own -> host <> own ->
  content <> [] -> h <> blank -> (length content + cs - 1) / cs <= N.to_nat 65536 -> u16 port ->
  normal_name (take 255 name) -> can_write f p -> f !! p = None -> parent dl <> dir ->
  (forall i, ~ ragged cs (chunk_bytes content' cs i) \/ first_empty (chunk_bytes content' cs i) <= 1024) ->
  shares M h content cs name host -> is_up M s port -> from_ipv4 ra ip -> sv_uploads s !! (ip, u16_of_int (ua_port ra)) = None ->
  parent (path_of M h) <> rm_dir M -> path_of M h <> rm_dir M -> length content' = length content ->
  let M' := overwritten M (path_of M h) content' in
  is_up M' s port /\ exists r data c' f' n out b, found M' port h r /\ described M' port h data
    /\ run f (start_download (Some ifs) c h [r] (Some data)) = (f', Done (c', Ok own))
    /\ lexec own h (one_peer own h content' cs name host port) (mkL LCheck c' f' ∅) n out b
    /\ l_pc b = LDone /\ file_at (l_fs b) p = Some content'.
Proof.
  intros p Hr HA Hif Hown Hho Hne Hb Hcnt Hport Hname Hcw Hnone Hdl Hrag Hsh Hup Hra Hkey Hp1 Hp2 Hlen M'.
  pose proof (changed_shares M h content cs name host content' Hsh Hlen) as Hsh'. fold M' in Hsh'.
  pose proof (changed_is_up M s port h content cs name host (path_of M h) content' Hsh eq_refl Hup Hp1 Hp2) as Hup'. fold M' in Hup'.
  assert (content' <> []) as Hne' by (intros ->; destruct content; done).
  split; [done|]. rewrite <- Hlen in Hcnt.
  destruct (C87_answers_lemma M' s h content' cs name host port Hne' Hb Hcnt Hport Hsh' Hup') as [(r & Hf & Hra1 & Hrp) (data & Hdat)].
  assert (selected (fun x => h_addr x <> own) [r] [r]) as Hsel by (constructor; [congruence|constructor]).
  destruct (C87_lemma cwd dir dl A c f h content' cs name own host port ifs [r] r M' data Hr HA Hif Hown Hho Hne' Hb Hcnt Hport Hname Hcw Hdl Hrag Hsh' Hf Hsel Hdat)
    as (c' & f' & Hrun & Hall & Hex).
  destruct (Hex s ra ip Hup' Hra Hkey) as (n & out & b & Hlx & Hd). exists r, data, c', f', n, out, b.
  do 5 (split; [done|]). destruct (Hall n out b Hlx) as (_ & _ & Hfin). specialize (Hfin Hd). fold p in Hfin.
  unfold file_at in Hfin at 2. rewrite Hnone in Hfin. cbn [default] in Hfin. rewrite drop_nil, app_nil_r in Hfin.
  destruct (file_at (l_fs b) p); [cbn in Hfin; congruence|]. cbn in Hfin. done.
Qed.

(** ** Sharing a file that changes *)
Lemma run_among {A : Type} others (m : io A) f f' out : run f m = (f', out) -> among others f m f' out.
Proof.
  revert f. induction m as [a|w| |o k IH]; intros f; cbn [run]; [intros [= <- <-]; constructor..|].
  destruct (do_op f o) as [r f1] eqn:E. intros H. eapply am_do; [exact E|]. apply IH. done.
Qed.
Lemma among_bind_done {A B : Type} others (m : io A) (g : A -> io B) f f' b : among others f (bind m g) f' (Done b) ->
  exists f1 a, among others f m f1 (Done a) /\ among others f1 (g a) f' (Done b).
Proof.
  intros H. remember (bind m g) as x eqn:Ex. remember (Done b) as out eqn:Eo. revert m Ex.
  induction H as [f f1 x f' out Ho H IH|f y|f w|f|f o k r f1 f' out Hd H IH]; intros m Ex.
  - destruct (IH Eo m Ex) as (f2 & a & H1 & H2). exists f2, a. split; [eapply am_other; done|done].
  - destruct m as [a|w| |o k]; cbn [bind] in Ex; try done. exists f, a. split; [constructor|]. injection Eo as ->. rewrite <- Ex. constructor.
  - done.
  - done.
  - destruct m as [a|w| |o2 k2]; cbn [bind] in Ex; try done.
    + exists f, a. split; [constructor|]. rewrite <- Ex. eapply am_do; done.
    + injection Ex as -> ->. destruct (IH Eo (k2 r) eq_refl) as (f2 & a & H1 & H2). exists f2, a. split; [eapply am_do; done|done].
Qed.
Lemma among_bind {A B : Type} others (m : io A) (g : A -> io B) f f1 a f' out : among others f m f1 (Done a) -> among others f1 (g a) f' out ->
  among others f (bind m g) f' out.
Proof.
  intros H H2. remember (Done a) as o1 eqn:Eo. revert Eo. induction H; intros Eo; simplify_eq; cbn [bind]; [eapply am_other; eauto|done|eapply am_do; eauto].
Qed.
Lemma among_ret {A : Type} others (a : A) f f' out : among others f (Ret a) f' out -> out = Done a.
Proof. intros H. remember (Ret a) as m eqn:E. induction H; simplify_eq; auto. Qed.
(** what a call finds, when [I] holds of the disk at all times *)
Lemma among_do {A : Type} (others : fs -> fs -> Prop) (I : fs -> Prop) o (k : reply -> io A) f f' out : (forall g g', others g g' -> I g -> I g') -> I f ->
  among others f (Do o k) f' out -> exists g r g1, I g /\ do_op g o = (r, g1) /\ among others g1 (k r) f' out.
Proof.
  intros HI Hf H. remember (Do o k) as m eqn:E. revert Hf. induction H as [f f1 x f' out Ho H IH|f y|f w|f|f o2 k2 r f1 f' out Hd H IH]; intros Hf; simplify_eq.
  - apply IH; [done|]. eapply HI; done.
  - eauto 10.
Qed.
Section sharing.
  Context (q : path) (V : list byte -> Prop).
  Definition in_V (f : fs) : Prop := match f !! q with Some NDir => False | Some (NFile l) => V l | None => True end.
  Lemma rewrites_in_V f f' : rewrites q V f f' -> in_V f -> in_V f'.
  Proof. intros (l & Hl & ->) _. unfold in_V. rewrite lookup_insert. done. Qed.
  Lemma generate_among cwd p f f' e : q = abs cwd p -> in_V f -> among (rewrites q V) f (generate_record cwd p) f' (Done e) ->
    (exists l1 l2, V l1 /\ V l2 /\ e = Ok (mkRec q (Z.of_nat (length l1)) (sha1 l2) None default_chunk_size)) \/ exists w, e = Err w.
  Proof.
    intros Hq Hf H. unfold generate_record in H. rewrite <- Hq in H.
    apply (among_do _ in_V) in H as (g & r & g1 & Hg & Hd & H); [|apply rewrites_in_V|done].
    cbn [do_op] in Hd. pose proof Hg as Hv. unfold in_V in Hv. destruct (g !! q) as [[l1|]|] eqn:E; [|done|].
    2:{ assert (exists b, r = RFail b) as [b ->] by (repeat case_match; simplify_eq; eauto). apply among_ret in H as [= ->]. eauto. }
    injection Hd as <- <-. apply among_bind_done in H as (f2 & h & H1 & H2). apply among_ret in H2 as [= ->]. unfold hash_path in H1.
    apply (among_do _ in_V) in H1 as (g2 & r & g3 & Hg2 & Hd & H1); [|apply rewrites_in_V|done].
    cbn [do_op] in Hd. unfold in_V in Hg2. destruct (g2 !! q) as [[l2|]|] eqn:E2; [|done|].
    2:{ assert (exists b, r = RFail b) as [b ->] by (repeat case_match; simplify_eq; eauto). apply among_ret in H1 as [= ->]. cbn. eauto. }
    injection Hd as <- <-. apply among_ret in H1. rewrite hash_of_regular in H1. injection H1 as ->. left. exists l1, l2. split; [done|]. split; [done|]. done.
  Qed.
  Lemma add_among others c r f f' c' : among others f (add_record c r) f' (Done (c', Ok tt)) ->
    c_index c !! r_hash r = None /\ c' = set_index c (<[r_hash r := r]> (c_index c)).
  Proof.
    unfold add_record. destruct (c_index c !! r_hash r) eqn:E.
    - intros H. apply among_ret in H as [=].
    - intros H. apply among_bind_done in H as (f1 & x & _ & H2). apply among_ret in H2 as [= -> _]. done.
  Qed.
  Lemma C119_lemma cwd c p f f' c' r pr : q = abs cwd p -> is_rooted cwd = true -> (forall l, V l -> small l) ->
    f !! q <> Some NDir -> (forall l, file_at f q = Some l -> V l) ->
    among (rewrites q V) f (share_file cwd c p) f' (Done (c', Ok (r, pr))) ->
    exists l1 l2, V l1 /\ V l2 /\ c_index c !! sha1 l2 = None /\ c' = set_index c (<[sha1 l2 := r]> (c_index c)) /\ r_prog r = Some pr
      /\ shows (export_of r pr) (sha1 l2) (full_entry q (Z.of_nat (length l1)) 4194304).
  Proof.
    intros Hq Hcwd Hsm Hnd Hin H.
    assert (in_V f) as Hf by (unfold in_V, file_at in *; destruct (f !! q) as [[]|]; [apply Hin|apply Hnd|]; done).
    unfold share_file in H. apply among_bind_done in H as (f1 & g & Hg & H). apply (generate_among cwd p f f1 g Hq Hf) in Hg as [(l1 & l2 & V1 & V2 & ->)|(w & ->)].
    2:{ apply among_ret in H as [=]. }
    cbn [on_ok] in H. set (r0 := mkRec q (Z.of_nat (length l1)) (sha1 l2) None default_chunk_size) in *.
    apply among_bind_done in H as (f2 & [c1 e] & H1 & H). destruct e as [[]|w|w]; cbn [on_ok] in H.
    2:{ apply among_ret in H as [=]. }
    2:{ remember (Die w) as m eqn:E. remember (Done (c', Ok (r, pr))) as o eqn:E2. clear -E E2 H. induction H; simplify_eq; auto. }
    apply add_among in H1 as [Hnone ->]. change (r_hash r0) with (sha1 l2) in *. cbn [set_index c_dir] in H.
    pose proof (Hsm l1 V1) as Hs1. unfold small in Hs1.
    destruct (new_progress_ok r0 (c_dir c)) as (b0 & Hnp & Hb0); [cbn [r_size r0]; lia|cbn; unfold default_chunk_size; lia|].
    rewrite Hnp in H. cbn [rbind p_bits p_file] in H. change (r_hash r0) with (sha1 l2) in H.
    destruct (bfill_brel _ _ Hb0) as (b & Hfill & Hb). rewrite Hfill in H. cbn [rbind] in H.
    apply among_bind_done in H as (f3 & e & H2 & H). destruct e as [[]|w|w]; cbn [on_ok] in H.
    2:{ apply among_ret in H as [=]. }
    2:{ remember (Die w) as m eqn:E. remember (Done (c', Ok (r, pr))) as o eqn:E2. clear -E E2 H. induction H; simplify_eq; auto. }
    apply among_ret in H as [= -> -> ->]. exists l1, l2. split; [done|]. split; [done|]. split; [done|].
    cbn [set_index c_index c_dir c_dl c_pid c_touched c_inddir p_file p_bits].
    split; [rewrite insert_insert; done|]. split; [done|].
    unfold shows, export_of, full_entry. cbn [set_prog x_path x_size x_hash x_chunk x_bits r_path r_size r_hash r_chunk p_bits r0 a_path a_size a_chunk a_count a_held].
    split_and!; try done.
    + destruct Hb as (_ & Hn & _). exact Hn.
    + intros i. destruct Hb as (Hi & Hn & Hbb). cbn [fst r_size r_chunk r0] in Hbb. rewrite (Hbb i).
      assert (bcopy b = b) as -> by (destruct b; done). apply mem_bits. done.
  Qed.
End sharing.

(** the file is replaced between the daemon's looking at its size and its reading it *)
Lemma torn_lemma (V : list byte -> Prop) cwd dir dl A c f p l1 l2 : reached cwd dir dl A c f -> file_at f (abs cwd p) = Some l1 -> small l1 ->
  parent (abs cwd p) <> dir -> A !! sha1 l2 = None -> V l2 ->
  exists r pr f', among (rewrites (abs cwd p) V) f (share_file cwd c p) f' (Done (set_index c (<[sha1 l2 := r]> (c_index c)), Ok (r, pr)))
    /\ file_at f' (abs cwd p) = Some l2
    /\ shows (export_of r pr) (sha1 l2) (full_entry (abs cwd p) (Z.of_nat (length l1)) 4194304).
Proof.
  intros Hr Hf Hsm Hpar Ha HV. set (f2 := <[abs cwd p := NFile l2]> f).
  assert (reached cwd dir dl A c f2) as Hr2.
  { eapply re_outside; [exact Hr| |].
    - pose proof (reached_synced _ _ _ _ _ _ Hr) as (_ & Hs & <- & _). unfold f2. apply lookup_insert_ne. intros E.
      pose proof (sy_isdir _ _ _ Hs) as Hd. unfold file_at in Hf. rewrite E, Hd in Hf. done.
    - intros q Hq. unfold f2. apply lookup_insert_ne. congruence. }
  pose proof (reached_synced _ _ _ _ _ _ Hr2) as (Hcwd & H & Hdd & _).
  pose proof (sy_dir _ _ _ H) as Hd. pose proof (sha1_wf l2) as Hw.
  set (r0 := mkRec (abs cwd p) (Z.of_nat (length l1)) (sha1 l2) None default_chunk_size).
  assert (among (rewrites (abs cwd p) V) f (generate_record cwd p) f2 (Done (Ok r0))) as Hgen.
  { unfold generate_record. unfold file_at in Hf. destruct (f !! abs cwd p) as [[l|]|] eqn:E; simplify_eq.
    eapply am_do; [cbn [do_op]; rewrite E; reflexivity|]. eapply am_other; [exists l2; split; [done|reflexivity]|]. fold f2.
    apply run_among. rewrite run_bind. unfold hash_path. cbn [run do_op]. unfold f2 at 1. rewrite lookup_insert. cbn [run]. rewrite hash_of_regular. done. }
  set (c1 := set_index c (<[sha1 l2 := r0]> (c_index c))).
  set (f1 := <[join2 (c_dir c) index_name:=NFile (marshal c1)]> f2).
  unfold small in Hsm.
  destruct (new_progress_ok r0 (c_dir c)) as (b0 & Hnp & Hb0); [cbn [r_size r0]; lia|cbn; unfold default_chunk_size; lia|].
  destruct (bfill_brel _ _ Hb0) as (b & Hfill & Hb).
  assert (writable f1 (prog_path (c_dir c) (sha1 l2)) = true) as Hwr.
  { apply writable_child; [done|apply hash_normal; done| |].
    - unfold f1. rewrite lookup_insert_ne by (apply dir_not_child; [done|apply index_normal]). apply H.
    - unfold f1. destruct (decide (join2 (c_dir c) index_name = join2 (c_dir c) (hash_string (sha1 l2)))) as [->|E].
      + rewrite lookup_insert. done.
      + rewrite lookup_insert_ne by done. apply H. apply hash_normal. done. }
  set (r := set_prog r0 (mkProg b (prog_path (c_dir c) (sha1 l2)))).
  exists r, (mkProg b (prog_path (c_dir c) (sha1 l2))), (<[prog_path (c_dir c) (sha1 l2) := NFile (bserialize b)]> f1). split; [|split].
  - unfold share_file. eapply among_bind; [exact Hgen|]. cbn [on_ok]. apply run_among.
    unfold add_record. change (r_hash r0) with (sha1 l2).
    apply (entries_none _ _ _ _ _ (sy_ent _ _ _ H)) in Ha as Hc. rewrite Hc. fold c1.
    rewrite run_bind. rewrite run_bind.
    change (c_inddir c1) with (c_inddir c).
    rewrite save_index_run by (change (c_inddir c1) with (c_inddir c); rewrite (sy_ind _ _ _ H); apply (sy_writable _ _ _ _ H), index_normal).
    change (c_inddir c1) with (c_inddir c). rewrite (sy_ind _ _ _ H).
    cbn [run on_ok]. change (c_dir c1) with (c_dir c). fold f1.
    rewrite Hnp. cbn [rbind p_bits p_file]. change (r_hash r0) with (sha1 l2).
    rewrite Hfill. cbn [rbind].
    rewrite run_bind. rewrite save_prog_run by done. cbn [on_ok run].
    change (c_index c1) with (<[sha1 l2 := r0]> (c_index c)).
    fold r. rewrite insert_insert. done.
  - unfold file_at. rewrite lookup_insert_ne.
    2:{ intros E. apply Hpar. rewrite <- E, <- Hdd. apply parent_prog; done. }
    unfold f1. rewrite lookup_insert_ne.
    2:{ intros E. apply Hpar. rewrite <- E, <- Hdd. apply parent_index; done. }
    unfold f2. rewrite lookup_insert. done.
  - unfold shows, export_of, full_entry. cbn [r set_prog x_path x_size x_hash x_chunk x_bits r_path r_size r_hash r_chunk p_bits r0 a_path a_size a_chunk a_count a_held].
    split_and!; try done.
    + destruct Hb as (_ & Hn & _). exact Hn.
    + intros i. destruct Hb as (Hi & Hn & Hbb). cbn [fst r_size r_chunk r0] in Hbb. rewrite (Hbb i).
      assert (bcopy b = b) as -> by (destruct b; done). apply mem_bits. done.
Qed.

(** ** Downloads of files that have not changed *)
Lemma C118_right_lemma cwd dir dl A c f h content cs name own host port ifs resps r M data :
  let p := join2 dl (take 255 name) in
  reached cwd dir dl A c f -> A !! h = None -> no_spare ifs -> own_address ifs own -> host <> own ->
  content <> [] -> h <> blank -> (length content + cs - 1) / cs <= N.to_nat 65536 -> u16 port ->
  normal_name (take 255 name) -> can_write f p -> f !! p = None -> parent dl <> dir ->
  (forall i, ~ ragged cs (chunk_bytes content cs i) \/ first_empty (chunk_bytes content cs i) <= 1024) ->
  shares M h content cs name host -> sha1 content = h ->
  found M port h r -> selected (fun x => h_addr x <> own) resps [r] -> described M port h data ->
  exists c' f', run f (start_download (Some ifs) c h resps (Some data)) = (f', Done (c', Ok own))
    /\ forall n out b, lexec own h (one_peer own h content cs name host port) (mkL LCheck c' f' ∅) n out b -> l_pc b = LDone ->
         exists l, file_at (l_fs b) p = Some l /\ sha1 l = h.
Proof.
  intros p Hr HA Hif Hown Hho Hne Hb Hcnt Hport Hname Hcw Hnone Hdl Hrag Hsh Hsha Hf Hsel Hdat.
  destruct (C87_lemma cwd dir dl A c f h content cs name own host port ifs resps r M data Hr HA Hif Hown Hho Hne Hb Hcnt Hport Hname Hcw Hdl Hrag Hsh Hf Hsel Hdat)
    as (c' & f' & Hrun & Hall & _).
  exists c', f'. split; [done|]. intros n out b Hlx Hd. destruct (Hall n out b Hlx) as (_ & _ & Hfin). specialize (Hfin Hd). fold p in Hfin.
  unfold file_at in Hfin at 2. rewrite Hnone in Hfin. cbn [default] in Hfin. rewrite drop_nil, app_nil_r in Hfin.
  destruct (file_at (l_fs b) p) as [l|]; cbn [default] in Hfin; [|congruence]. exists l. split; [done|]. cbn in Hfin. congruence.
Qed.

(** ** Examples *)
Lemma ex_path_of : path_of ex_rem habc = bs "/a".
Proof. unfold path_of. cbn [ex_rem rm_A]. rewrite (entry_abc_full ex_cs ex_cs_Z). reflexivity. Qed.
Lemma C118_case_lemma :
  ex_f0 !! join2 ex_dl (take 255 (bs "a")) = None /\ parent (path_of ex_rem habc) <> rm_dir ex_rem /\ path_of ex_rem habc <> rm_dir ex_rem
  /\ length (bs "xyz") = length (bs "abc") /\ sha1 (bs "abc") = habc /\ sha1 (bs "xyz") <> habc
  /\ (forall i, ~ ragged ex_cs (chunk_bytes (bs "xyz") ex_cs i) \/ first_empty (chunk_bytes (bs "xyz") ex_cs i) <= 1024).
Proof.
  rewrite ex_path_of. split.
  { assert (match ex_f0 !! bs "/dl/a" with None => true | _ => false end = true) as E by (vm_compute; reflexivity).
    change (join2 ex_dl (take 255 (bs "a"))) with (bs "/dl/a"). revert E. generalize ex_f0. intros f. destruct (f !! bs "/dl/a"); done. }
  split; [vm_compute; discriminate|]. split; [vm_compute; discriminate|]. split; [reflexivity|]. split.
  { refine (bool_decide_unpack (sha1 (bs "abc") = habc) _). vm_compute. done. }
  split.
  { intros H. apply (f_equal (fun l => bool_decide (l = habc))) in H. revert H. vm_compute. discriminate. }
  intros i. left. intros [H _]. unfold chunk_bytes in H. rewrite take_length, drop_length in H. change (length (bs "xyz")) with 3 in H.
  pose proof ex_cs_Z. lia.
Qed.
Lemma C119_case_lemma :
  reached ex_cwd ex_dir ex_dl ∅ ex_c0 ex_f0 /\ bool_decide (file_at ex_f0 (abs ex_cwd (bs "a")) = Some (bs "abc")) = true /\ small (bs "abc")
  /\ parent (abs ex_cwd (bs "a")) <> ex_dir /\ bool_decide (sha1 (bs "hello") = sha1 (bs "abc")) = false.
Proof.
  split; [exact ex_reached0|]. split; [vm_compute; reflexivity|]. split; [vm_compute; done|]. split; [vm_compute; discriminate|]. vm_compute. reflexivity.
Qed.
