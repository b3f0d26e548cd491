(** Proofs about message handling, part 3: receiving a listing, what ends the
    process, uploads, request IDs, host selection. *)
From Verif Require Export ServerProofs2.
From Coq Require Import ZifyBool ZifyNat ZifyN.
Ltac Zify.zify_post_hook ::= Z.div_mod_to_equations.

(** ** C60 *)
Lemma ser_entry_shape e : entry_typed e -> exists fixed, length fixed = 40 /\
  ser_entry e = fixed ++ Nb (N.of_nat (Nat.min 255 (length (e_name e)))) :: take 255 (e_name e).
Proof.
  intros (_ & _ & _ & _ & Hh). rewrite ser_entry_eq by done.
  exists (be 8 (e_size e) ++ be 4 (e_count e) ++ be 4 (e_chunk e) ++ be 4 (e_down e) ++ e_hash e).
  unfold hash_wf in Hh. split; [rewrite !app_length, !be_length, Hh; done|]. rewrite <- !app_assoc. rewrite ser_string_eq || idtac. done.
Qed.
Lemma entries_cut es : forall k, Forall entry_typed es -> k < entries_size es ->
  ~ entries_fit (length es) (take k (concat (map ser_entry es))).
Proof.
  induction es as [|e es IH]; intros k Hty Hk Hfit; cbn [entries_size] in Hk; [lia|].
  inversion Hty as [|? ? H1 H2]; subst. destruct (ser_entry_shape e H1) as (fixed & Hf & He).
  assert (exists m, m = Nat.min 255 (length (e_name e))) as [m Em] by eauto. rewrite <- Em in *.
  cbn [map concat length] in Hfit. rewrite He in Hfit.
  inversion Hfit as [|n fx len name rest Hfx Hname Hrest Hn El]; subst n. clear Hfit.
  assert (length (take 255 (e_name e)) = m) as Hm by (rewrite take_length; done).
  assert (41 + length name <= k) as Hk2.
  { apply (f_equal length) in El. rewrite take_length, !app_length in El. cbn [length] in El. rewrite app_length in El. lia. }
  rewrite <- app_assoc in El. rewrite take_app_ge in El by lia.
  apply app_inj_1 in El as [-> El]; [|lia]. rewrite Hf in El.
  replace (k - 40) with (S (k - 41)) in El by lia. cbn [app take] in El. injection El as El1 El2. subst len.
  rewrite bN_Nb in Hname. replace (N.to_nat (N.of_nat m mod 256)) with m in Hname by lia.
  rewrite take_app_ge in El2 by lia. apply app_inj_1 in El2 as [_ El2]; [|lia].
  rewrite El2, Hm in Hrest. revert Hrest. apply IH; [done|]. lia.
Qed.
Lemma C60_received_lemma reqid es : u16 reqid -> Forall entry_typed es -> (N.of_nat (length es) <= 65535)%N ->
  if decide (5 + entries_size es <= 1024)
  then listing_received (Some (serialize (ListResp reqid es))) = Ok (map cut_name es)
  else is_panic (listing_received (Some (serialize (ListResp reqid es)))).
Proof.
  intros Hr Hty Hn. assert (msg_typed (ListResp reqid es)) as Ht by done.
  pose proof (serialize_length _ Ht) as Hl. cbn [wire_size] in Hl. unfold listing_received.
  destruct (decide _) as [Hfit|Hfit].
  - rewrite udp_buffer_fits by lia. rewrite parse_list_resp by done. cbn [rbind].
    rewrite N.mod_small by lia. rewrite Nat2N.id, take_ge by lia. done.
  - rewrite udp_buffer_long by lia. cbn [serialize] in *. rewrite ser_list_resp_eq in *.
    assert (is_panic (parse (take 1024 (Nb 3 :: be 2 reqid ++ be 2 (N.of_nat (length es)) ++ concat (map ser_entry es))))) as Hp.
    { change (Nb 3) with x03. change 1024 with (S 1023). rewrite firstn_cons. apply parse_type3.
      - rewrite take_length, !app_length, !be_length. lia.
      - intros Hx. replace (take 2 (drop 2 (take 1023 (be 2 reqid ++ be 2 (N.of_nat (length es)) ++ concat (map ser_entry es)))))
          with (be 2 (N.of_nat (length es))) in Hx.
        2:{ rewrite take_app_ge by (rewrite be_length; lia). rewrite drop_app_alt by (rewrite be_length; done). rewrite be_length.
            rewrite take_app_ge by (rewrite be_length; lia). rewrite take_app_alt by (rewrite be_length; done). done. }
        rewrite unbe_be_small in Hx by (change (256 ^ N.of_nat 2)%N with 65536%N; lia). rewrite Nat2N.id in Hx.
        revert Hx. replace (drop 4 _) with (take 1019 (concat (map ser_entry es))).
        + apply entries_cut; [done|lia].
        + rewrite app_assoc, take_app_ge by (rewrite app_length, !be_length; lia).
          rewrite drop_app_alt by (rewrite app_length, !be_length; done). rewrite app_length, !be_length. done. }
    destruct Hp as [w Hp]. rewrite (N.mod_small (N.of_nat (length es)) 65536) by lia. rewrite Hp. by eexists.
Qed.
