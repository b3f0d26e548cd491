(** A concrete world for the examples beside the catalogue theorems. *)
From Verif Require Export CatalogueReach CatalogueDownload CleanProofs CrashSpec.

Definition bs (s : string) : list byte := String.list_byte_of_string s.
(** a machine with a file /a containing "abc", a file with the name 0xFF in the
    root directory, and a downloads directory that has an old file in it *)
Definition w0 : fs :=
  <[bs "/" := NDir]> (<[bs "/dl" := NDir]> (<[bs "/dl/old" := NFile (bs "0123456789")]> (<[bs "/a" := NFile (bs "abc")]>
    {[ [slash; xff] := NFile (bs "zz") ]}))).
Definition ex_cwd : path := bs "/".
Definition ex_dir : path := bs "/cat".
Definition ex_dl : path := bs "/dl".
Definition default_cat : cat := new_cat ex_cwd ex_dir ex_dl.
Definition ex_open : fs * outcome (res cat) := run w0 (open_cat 7 9 ex_cwd ex_dir ex_dl).
Definition ex_c0 : cat := match ex_open.2 with Done (Ok c) => c | _ => default_cat end.
Definition ex_f0 : fs := ex_open.1.
(** the state after one more call, and the answer *)
Definition next (s : cat * fs * cans) (q : ccall) : cat * fs * cans :=
  match crun ex_cwd s.1.1 s.1.2 q with Some x => x | None => s end.
Definition habc : hash := sha1 (bs "abc").
Definition hnew : hash := replicate 20 x07.

Lemma ex_opens : match ex_open.2 with Done (Ok _) => true | _ => false end = true.
Proof. vm_compute. reflexivity. Qed.
Lemma ex_fresh : fresh_start ex_cwd ex_dir ex_dl 7 9 w0 ex_f0 ex_c0.
Proof.
  split; [reflexivity|]. split; [vm_compute; discriminate|]. split; [apply sanitize_id_iff; vm_compute; reflexivity|].
  split; [lia|]. split; [lia|]. split.
  2: { pose proof ex_opens as E. unfold ex_f0, ex_c0. fold ex_open. destruct ex_open as [f [[c|w|w]|w|]]; try discriminate E. reflexivity. }
  intros p Hp Hne. unfold w0.
  repeat (rewrite lookup_insert_ne; [|intros <-; revert Hp Hne; vm_compute; congruence]).
  apply lookup_singleton_ne. intros <-; revert Hp Hne; vm_compute; congruence.
Qed.

Lemma ex_reached0 : reached ex_cwd ex_dir ex_dl ∅ ex_c0 ex_f0.
Proof. eapply re_start; [apply ex_fresh|vm_compute; reflexivity..]. Qed.
Definition entry_abc : aentry := full_entry (bs "/a") 3 4194304.
Definition entry_new : aentry := new_entry (bs "/dl/new") 5 3.
Definition ex0 : cat * fs * cans := (ex_c0, ex_f0, AOk).
(** after sharing /a *)
Definition ex1 := next ex0 (CShare (bs "a")).
(** ... and registering the download of a five-byte file in chunks of three *)
Definition ex2 := next ex1 (CRegister 5 2 3 hnew (bs "new")).
(** ... and receiving its second chunk *)
Definition ex3 := next ex2 (CSave hnew 1 (bs "de")).
Definition at_ex (A : astate) (s : cat * fs * cans) : Prop := reached ex_cwd ex_dir ex_dl A s.1.1 s.1.2.
Lemma next_reached A s q A' : at_ex A s -> allowed ex_cwd ex_dir ex_dl A s.1.2 q ->
  (forall A2 f2 ans2, aspec ex_cwd ex_dir ex_dl A s.1.2 q A2 f2 ans2 -> A2 = A') -> at_ex A' (next s q).
Proof.
  intros H Hal Hu. destruct (reached_call _ _ _ _ _ _ _ H Hal) as (c2 & f2 & A2 & ans2 & Hr2 & Hs & Hre).
  unfold next. rewrite Hr2. unfold at_ex. cbn [fst snd]. rewrite <- (Hu _ _ _ Hs). done.
Qed.
Lemma ex_file_a : file_at ex_f0 (abs ex_cwd (bs "a")) = Some (bs "abc").
Proof. vm_compute. reflexivity. Qed.
Lemma abs_a : abs ex_cwd (bs "a") = bs "/a".
Proof. vm_compute. reflexivity. Qed.
Lemma ex1_reached : at_ex {[habc := entry_abc]} ex1.
Proof.
  eapply (next_reached ∅ ex0 (CShare (bs "a"))).
  - apply ex_reached0.
  - cbn [allowed]. unfold ex0. cbn [fst snd]. rewrite ex_file_a. intros l [= <-]. vm_compute. done.
  - intros A2 f2 ans2 [_ H]. unfold ex0 in H. cbn [fst snd] in H. rewrite ex_file_a in H. rewrite lookup_empty in H. destruct H as [-> _].
    rewrite insert_empty, abs_a. reflexivity.
Qed.
Lemma hnew_ne : hnew <> habc.
Proof. intros H. apply (f_equal (fun l => bool_decide (l = hnew))) in H. revert H. vm_compute. discriminate. Qed.
Lemma hnew_wf : hash_wf hnew.
Proof. reflexivity. Qed.
Lemma hnew_free : ({[habc := entry_abc]} : astate) !! hnew = None.
Proof. apply lookup_singleton_ne, not_eq_sym, hnew_ne. Qed.
Lemma ex1_writable : is_dir ex1.1.2 (bs "/dl") && negb (is_dir ex1.1.2 (bs "/dl/new")) = true.
Proof. vm_compute. reflexivity. Qed.
Global Opaque habc hnew ex_open ex1.
Lemma ex1_can : ex1.1.2 !! bs "/dl" = Some NDir /\ ex1.1.2 !! bs "/dl/new" <> Some NDir.
Proof.
  pose proof ex1_writable as E. revert E. generalize (ex1.1.2). intros f E.
  unfold is_dir in E. apply andb_prop in E as [E1 E2]. destruct (f !! bs "/dl") as [[]|]; try done.
  split; [done|]. destruct (f !! bs "/dl/new") as [[]|]; done.
Qed.
Definition A2 : astate := <[hnew := entry_new]> {[habc := entry_abc]}.
Lemma ex2_reached : at_ex A2 ex2.
Proof.
  eapply (next_reached _ ex1 (CRegister 5 2 3 hnew (bs "new"))).
  - apply ex1_reached.
  - cbn [allowed]. split_and!; [lia|lia|lia|apply hnew_wf|]. unfold normal_name. split_and!; [done..|].
    refine (bool_decide_unpack (slash ∉ bs "new") _). vm_compute. done.
  - intros A3 f2 ans2 [_ H]. rewrite hnew_free in H. destruct H as [-> _].
    reflexivity.
Qed.
Lemma ex2_writable : is_dir ex2.1.2 (bs "/dl") && negb (is_dir ex2.1.2 (bs "/dl/new")) = true.
Proof. vm_compute. reflexivity. Qed.
Lemma A2_new : A2 !! hnew = Some entry_new.
Proof. apply lookup_insert. Qed.
Global Opaque ex2.
Lemma ex2_can : can_write ex2.1.2 (bs "/dl/new").
Proof.
  assert (parent (bs "/dl/new") = bs "/dl") as Hp by (vm_compute; reflexivity).
  unfold can_write. rewrite Hp. pose proof ex2_writable as E. revert E. generalize (ex2.1.2). intros f E.
  unfold is_dir in E. apply andb_prop in E as [E1 E2]. destruct (f !! bs "/dl") as [[]|]; try done.
  split; [done|]. destruct (f !! bs "/dl/new") as [[]|]; done.
Qed.
Lemma ex3_reached : at_ex (<[hnew := hold entry_new 1]> A2) ex3.
Proof.
  eapply (next_reached A2 ex2 (CSave hnew 1 (bs "de"))).
  - apply ex2_reached.
  - cbn [allowed]. split; [lia|]. exists entry_new. split; [apply A2_new|]. vm_compute. discriminate.
  - intros A3 f3 ans3 H. cbn [aspec] in H. rewrite A2_new in H. destruct H as [(_ & _ & H & _)|(H & _)].
    + exact H.
    + exfalso. apply H. apply ex2_can.
Qed.
Global Opaque ex3.
Lemma A3_abc : (<[hnew := hold entry_new 1]> A2) !! habc = Some entry_abc.
Proof. unfold A2. rewrite !lookup_insert_ne by apply hnew_ne. apply lookup_singleton. Qed.
