(** Proofs about the files that a command may change (C130). *)
From Verif Require Export TouchSpec.
From Verif Require Import StopProofs DialProofs StartProofs CliProofs2 ServerProofs4 CatalogueReach CatalogueInv CatalogueProofs CatalogueFaults CatalogueCrash SweepProofs.

Lemma killed_on_call {X : Type} s ds (r : res X) k f f' : (forall a, exists v, k a = Ret v) -> killed f (on_call s ds r k) f' -> f' = f.
Proof.
  intros Hk H. destruct r as [a|w|w]; cbn [on_call] in H; [|by apply killed_ret in H|by apply killed_die in H].
  destruct (Hk a) as [v E]. rewrite E in H. by apply killed_ret in H.
Qed.
Lemma killed_dialled {X : Type} d ip (m : io X) f f' : killed f (dialled d ip m) f' -> f' = f \/ killed f m f'.
Proof. unfold dialled. destruct (d ip); [auto|]. intros H. apply killed_die in H. auto. Qed.
Lemma pure_contains c h : pure_io (contains c h).
Proof. unfold contains. apply pure_bind; [apply pure_get_record|]. intros [c1 [x|w|w]]; done. Qed.
Lemma contains_dirs c h f f' c' r : execs f (contains c h) f' (Done (c', r)) -> f' = f /\ c_dir c' = c_dir c /\ c_inddir c' = c_inddir c.
Proof.
  unfold contains. intros H. apply execs_bind in H as [(f1 & [c1 g] & H1 & H)|[(w & _ & E)|[_ E]]]; try done.
  apply get_record_runs in H1 as [-> Hc].
  assert (c' = c1 /\ f' = f) as [-> ->].
  { destruct g as [x|w|w]; cbn [on_ok] in H; [apply execs_ret in H as [-> E]; by injection E as -> ->..|]. inversion H. }
  split; [done|]. destruct Hc as [(r1 & p1 & _ & -> & _)|[_ ->]]; done.
Qed.
Lemma killed_get cwd dir dl A s f d e h f' : reached cwd dir dl A (sv_cat s) f -> killed f (serve_on d e s (RqGet h)) f' ->
  f' = f \/ exists en c1 c2, describes_one (ce_listing e) h en /\ c_dir c1 = dir /\ hash_wf h /\ crash_disk c1 f c2 h f'.
Proof.
  intros H Hk. pose proof (reached_synced _ _ _ _ _ _ H) as (_ & Hs & Hd & _). cbn [serve_on] in Hk.
  assert (forall g, killed f (start_download_on d (ce_ifs e) (sv_cat s) h (ce_resps e) (ce_listing e)) g ->
    g = f \/ exists en c1 c2, describes_one (ce_listing e) h en /\ c_dir c1 = dir /\ hash_wf h /\ crash_disk c1 f c2 h g) as Hg.
  2:{ apply killed_bind in Hk as [Hk|(f1 & [c r] & H1 & Hk)]; [auto|]. apply killed_on_call in Hk as ->; [|intros a; by eexists].
      apply execs_killed in H1. auto. }
  clear Hk f'. intros f' Hk. unfold start_download_on in Hk.
  apply killed_bind in Hk as [Hk|(f1 & [c1 x] & H1 & Hk)]; [left; apply killed_pure in Hk; [done|apply pure_contains]|].
  apply contains_dirs in H1 as (-> & Hd1 & Hi1).
  destruct (local_ip (ce_ifs e)) as [[ip|]|w|w]; [|left; by apply killed_die in Hk..].
  destruct (new_ipv4 ip) as [own|w|w]; [|left; by apply killed_ret in Hk|left; by apply killed_die in Hk].
  apply killed_dialled in Hk as [->|Hk]; [auto|].
  destruct (good_hosts own (ce_resps e)) as [[|r hs]|w|w]; [left; by apply killed_ret in Hk| |left; by apply killed_die in Hk..].
  assert (f' = f \/ killed f (dialled d (h_addr r)
                       (match download_meta h (ce_listing e) with
                        | Ok e =>
                            do! (c2, r) := register_download c1 (e_size e) (e_count e) (e_chunk e) (e_hash e) (e_name e) in
                            Ret (c2, match r with Ok _ => Ok own | Err w => Err w | Panic w => Panic w end)
                        | Err w => Ret (c1, Err w)
                        | Panic w => Die w
                        end)) f') as [->|Hk']; [|auto|].
  { destruct x as [x|w|w]; [left; by apply killed_ret in Hk|auto..]. }
  clear Hk. apply killed_dialled in Hk' as [->|Hk]; [auto|].
  destruct (download_meta_cases h (ce_listing e)) as [(en & He & E)|[(_ & _ & w & E)|(_ & _ & w & E)]]; rewrite E in Hk;
    [|left; by apply killed_ret in Hk|left; by apply killed_die in Hk].
  assert (e_hash en = h) as Heh by (destruct He as (? & ? & _ & _ & ?); done).
  assert (hash_wf h) as Hw.
  { destruct He as (b & reqid & _ & Hp & _). apply parse_typed in Hp as [[_ Hp] _]. inversion Hp as [|? ? (_ & _ & _ & _ & H5) _]; subst. done. }
  rewrite Heh in Hk. right.
  assert (forall g, killed f (register_download c1 (e_size en) (e_count en) (e_chunk en) h (e_name en)) g -> exists c2, crash_disk c1 f c2 h g) as Hr.
  { intros g Hx. apply killed_register in Hx; [by eexists|rewrite Hd1; apply Hs|rewrite Hd1, Hi1; apply Hs|done]. }
  apply killed_bind in Hk as [Hk|(f2 & [c2 r2] & H2 & Hk)].
  - destruct (Hr _ Hk) as [c2 Hc]. exists en, c1, c2. rewrite Hd1. done.
  - apply killed_ret in Hk as ->. apply execs_killed in H2. destruct (Hr _ H2) as [c3 Hc]. exists en, c1, c3. rewrite Hd1. done.
Qed.
Lemma C130_lemma cwd dir dl A s f d e q f' :
  srv_reached cwd dir dl A s f -> ce_cwd e = cwd ->
  (q = RqClean -> valid_utf8 dir /\ (forall h a, A !! h = Some a -> valid_utf8 (a_path a)) /\ NoDup (ce_order e) /\ forall h, h ∈ ce_order e <-> A !! h <> None) ->
  killed f (serve_on d e s q) f' ->
  same_user dir f f' /\ forall p, ~ may_change cwd dir f e q p -> f' !! p = f !! p.
Proof.
  intros Hsr <- Hcl Hk. pose proof (proj1 (srv_inv _ _ _ _ _ _ Hsr)) as H. pose proof (reached_synced _ _ _ _ _ _ H) as (_ & Hs & Hd & _).
  assert (clean_abs dir) as Hc by (rewrite <- Hd; apply Hs).
  assert (forall h c1 c2, c_dir c1 = dir -> hash_wf h -> crash_disk c1 f c2 h f' ->
    same_user dir f f' /\ forall p, p <> join2 dir index_name -> p <> join2 dir (hash_string h) -> f' !! p = f !! p) as Hx.
  { intros h c1 c2 Ed Hw [Hp _]. rewrite Ed in Hp. split; [|exact Hp]. intros p Hn. apply Hp; intros ->; apply Hn.
    - apply parent_index. done.
    - apply parent_prog; done. }
  assert (f' = f -> same_user dir f f' /\ forall p, ~ may_change (ce_cwd e) dir f e q p -> f' !! p = f !! p) as Hsame by (intros ->; done).
  destruct q as [p| |ip h|h|h].
  - cbn [serve_on serve] in Hk.
    assert (killed f (share_file (ce_cwd e) (sv_cat s) p) f') as Hk'.
    { apply killed_bind in Hk as [Hk|(f1 & [c r] & H1 & Hk)]; [done|]. apply killed_on_call in Hk as ->; [|intros a; by eexists]. by apply execs_killed in H1. }
    apply killed_share in Hk' as [E|(l & Hl & Hcd)]; [auto| |apply Hs|apply Hs].
    destruct (Hx _ _ _ Hd (sha1_wf l) Hcd) as [H1 H2]. split; [done|]. intros p' Hn. apply H2; intros ->; apply Hn; by econstructor.
  - destruct (Hcl eq_refl) as (Hu & Hua & Hnd & Hin). cbn [serve_on serve] in Hk.
    assert (killed f (clean_index (sv_cat s) (ce_order e)) f') as Hk'.
    { apply killed_bind in Hk as [Hk|(f1 & [c r] & H1 & Hk)]; [done|]. apply killed_on_call in Hk as ->; [|intros a; by eexists]. by apply execs_killed in H1. }
    destruct (C127_lemma _ _ _ _ _ _ _ _ Hu H Hua (conj Hnd Hin) Hk') as [Hsu _]. split; [done|].
    intros p Hn. apply Hsu. intros Hp. apply Hn. by constructor.
  - apply Hsame. cbn [serve_on] in Hk.
    assert (killed f (serve e s (RqList ip h)) f' \/ f' = f) as [Hk'|]; [|clear Hk|done].
    { destruct (gob_bytes ip) as [l|]; [|auto]. destruct (to4 l) as [addr|]; [|auto].
      destruct (let! _ := _ in _) as [ip4|w|w]; [|apply killed_die in Hk; auto..]. apply killed_dialled in Hk as [->|Hk]; auto. }
    cbn [serve] in Hk'. destruct (gob_bytes ip) as [l|].
    + destruct (to4 l) as [addr|]; [|by apply killed_die in Hk'].
      destruct (let! _ := _ in _) as [ip4|w|w]; [|by apply killed_die in Hk'..].
      destruct (generate_request_id s) as [reqid s']. apply killed_on_call in Hk'; [done|]. intros a. by eexists.
    + apply killed_bind in Hk' as [Hk|(f1 & [c r] & H1 & Hk)].
      * apply killed_pure in Hk; [done|]. apply pure_list.
      * apply killed_on_call in Hk as ->; [|intros a; by eexists]. apply execs_killed, killed_pure in H1; [done|]. apply pure_list.
  - destruct (killed_get _ _ _ _ _ _ _ _ _ _ H Hk) as [E|(en & c1 & c2 & He & Hd1 & Hw & Hcd)]; [auto|].
    destruct (Hx _ _ _ Hd1 Hw Hcd) as [H1 H2]. split; [done|]. intros p' Hn. apply H2; intros ->; apply Hn; by econstructor.
  - apply Hsame. cbn [serve_on] in Hk. apply killed_dialled in Hk as [->|Hk]; [done|]. cbn [serve] in Hk.
    destruct (generate_request_id s) as [reqid s']. by apply killed_ret in Hk.
Qed.
