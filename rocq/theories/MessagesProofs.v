(** Proofs about the wire format (C17-C22). *)
From Verif Require Export MessagesSpec.
From Verif Require Import HashProofs.
From Coq Require Import ZifyBool ZifyNat ZifyN.
Ltac Zify.zify_post_hook ::= Z.div_mod_to_equations.

(** ** Closed forms of the serializers *)
Lemma put_app pre mid post src a b :
  length pre = a -> length mid = b - a -> a <= b -> length src = b - a ->
  put a b src (pre ++ mid ++ post) = pre ++ src ++ post.
Proof.
  intros Ha Hb Hab Hs. unfold put.
  rewrite (take_app_alt pre _ a) by done.
  rewrite (drop_app_alt pre _ a) by done.
  rewrite (take_app_alt mid) by lia. rewrite gocopy_full by lia.
  rewrite (app_assoc pre mid post), (drop_app_alt (pre ++ mid)) by (rewrite app_length; lia). done.
Qed.

Lemma put_app_long pre mid post src a b :
  length pre = a -> length mid = b - a -> a <= b -> b - a <= length src ->
  put a b src (pre ++ mid ++ post) = pre ++ take (b - a) src ++ post.
Proof.
  intros Ha Hb Hab Hs. rewrite <- (put_app pre mid post (take (b - a) src) a b) by (rewrite ?take_length; lia).
  unfold put. f_equal. f_equal. unfold gocopy.
  assert (length (take (b - a) (drop a (pre ++ mid ++ post))) = b - a) as ->.
  { rewrite take_length, drop_length, !app_length. lia. }
  rewrite take_take, Nat.min_id. f_equal.
  rewrite !drop_ge; [done| |]; rewrite !take_length, drop_length, !app_length; lia.
Qed.

Lemma len2 {A} (l : list A) : length l = 2 -> exists a b, l = [a;b].
Proof. destruct l as [|a [|b [|]]]; try done. eauto. Qed.
Lemma len4 {A} (l : list A) : length l = 4 -> exists a b c d, l = [a;b;c;d].
Proof. destruct l as [|a [|b [|c [|d [|]]]]]; try done. eauto. Qed.
Lemma len8 {A} (l : list A) : length l = 8 -> exists a b c d e f g h, l = [a;b;c;d;e;f;g;h].
Proof. destruct l as [|a [|b [|c [|d [|e [|f [|g [|h [|]]]]]]]]]; try done. do 8 eexists; done. Qed.
Ltac explode20 h H :=
  do 20 (destruct h as [|? h]; [discriminate H|]); destruct h; [|discriminate H]; clear H.
Ltac exp2 t := let E := fresh "E" in let a := fresh "x" in let b := fresh "x" in
  destruct (len2 t) as (a & b & E); [try apply be_length; try done|rewrite ?E in *].
Ltac exp4 t := let E := fresh "E" in let a := fresh "x" in let b := fresh "x" in
  let c := fresh "x" in let d := fresh "x" in
  destruct (len4 t) as (a & b & c & d & E); [try apply be_length; try done|rewrite ?E in *].
Ltac exp8 t := let E := fresh "E" in
  destruct (len8 t) as (?&?&?&?&?&?&?&?& E); [try apply be_length; try done|rewrite ?E in *].

Lemma zeros_length n : length (zeros n) = n.
Proof. apply replicate_length. Qed.

Definition be2s (cs : list N) : list byte := concat (map (be 2) cs).
Lemma be2s_length cs : length (be2s cs) = 2 * length cs.
Proof. induction cs as [|c cs IH]; [done|]. unfold be2s in *. cbn [map concat]. rewrite app_length, IH, be_length. simpl. lia. Qed.
Lemma put_chunks_eq cs : forall i pre, length pre = 2 * i ->
  put_chunks i cs (pre ++ zeros (length cs * 2)) = pre ++ be2s cs.
Proof.
  induction cs as [|c cs IH]; intros i pre Hp; [done|].
  cbn [put_chunks length].
  replace (S (length cs) * 2) with (2 + length cs * 2) by lia.
  unfold zeros at 1. rewrite replicate_add.
  rewrite (put_app pre (replicate 2 x00)); try (rewrite ?be_length; simpl; lia).
  rewrite app_assoc. fold (zeros (length cs * 2)).
  rewrite IH by (rewrite app_length, be_length; lia).
  unfold be2s. cbn [map concat]. rewrite <- !app_assoc. done.
Qed.
Lemma put_chunks_0 cs : put_chunks 0 cs (zeros (length cs * 2)) = be2s cs.
Proof. exact (put_chunks_eq cs 0 [] eq_refl). Qed.

Lemma ser_disc_req_eq r h cs : hash_wf h ->
  ser_disc_req r h cs = Nb 0 :: be 2 r ++ h ++ Nb (N.of_nat (length cs)) :: be2s cs.
Proof.
  intros Hh. unfold ser_disc_req. rewrite put_chunks_0.
  exp2 (be 2 r). red in Hh. explode20 h Hh. reflexivity.
Qed.
Lemma ser_disc_resp_eq a p r cs : length a = 4 ->
  ser_disc_resp a p r cs = Nb 1 :: be 2 r ++ a ++ be 2 p ++ Nb (N.of_nat (length cs)) :: be2s cs.
Proof.
  intros Ha. unfold ser_disc_resp. rewrite put_chunks_0.
  exp2 (be 2 r). exp2 (be 2 p). destruct (len4 a Ha) as (?&?&?&?&->). reflexivity.
Qed.
Lemma ser_list_req_eq r h : hash_wf h -> ser_list_req r h = Nb 2 :: be 2 r ++ h.
Proof. intros Hh. unfold ser_list_req. exp2 (be 2 r). red in Hh. explode20 h Hh. reflexivity. Qed.
Lemma ser_open_eq h c w : hash_wf h ->
  ser_open h c w = Nb 4 :: h ++ be 2 c ++ be 2 w ++ zeros 7.
Proof. intros Hh. unfold ser_open. exp2 (be 2 c). exp2 (be 2 w). red in Hh. explode20 h Hh. reflexivity. Qed.
Lemma ser_ack_eq o : ser_ack o = Nb 6 :: be 4 o.
Proof. unfold ser_ack. exp4 (be 4 o). reflexivity. Qed.
Lemma ser_data_eq o d : ser_data o d = Nb 5 :: be 4 o ++ d.
Proof.
  unfold ser_data.
  change (<[0:=Nb 5]> (zeros (5 + length d))) with ([Nb 5] ++ [x00;x00;x00;x00] ++ zeros (length d)).
  rewrite (put_app [Nb 5] [x00;x00;x00;x00] (zeros (length d))) by (rewrite ?be_length; simpl; lia).
  rewrite app_assoc, <- (app_nil_r (zeros (length d))).
  rewrite (put_app ([Nb 5] ++ be 4 o) (zeros (length d)) []);
    rewrite ?app_length, ?be_length, ?zeros_length; cbn [length]; try lia.
  rewrite app_nil_r, <- app_assoc. done.
Qed.
Lemma ser_string_eq s : ser_string s = Nb (N.of_nat (Nat.min 255 (length s))) :: take 255 s.
Proof.
  unfold ser_string.
  assert ((if (255 <? length s)%nat then 255 else length s) = Nat.min 255 (length s)) as ->.
  { destruct (Nat.ltb_spec 255 (length s)); lia. }
  set (n := Nat.min 255 (length s)).
  rewrite zeros_length. change (zeros (1 + n)) with ([x00] ++ zeros n).
  rewrite <- (app_nil_r (zeros n)).
  rewrite (put_app_long [x00] (zeros n) []) by (rewrite ?zeros_length; simpl; lia).
  rewrite app_nil_r. cbn [app]. change (<[0:=?x]> (?y :: ?z)) with (x :: z). cbn [insert list_insert].
  f_equal; [f_equal; lia|].
  replace (1 + n - 1) with n by lia. subst n.
  destruct (decide (length s <= 255)); [rewrite !take_ge by lia; done|].
  f_equal. lia.
Qed.
Lemma ser_entry_eq e : hash_wf (e_hash e) ->
  ser_entry e = be 8 (e_size e) ++ be 4 (e_count e) ++ be 4 (e_chunk e) ++ be 4 (e_down e) ++ e_hash e
    ++ Nb (N.of_nat (Nat.min 255 (length (e_name e)))) :: take 255 (e_name e).
Proof.
  intros Hh. unfold ser_entry. rewrite ser_string_eq.
  exp8 (be 8 (e_size e)). exp4 (be 4 (e_count e)). exp4 (be 4 (e_chunk e)). exp4 (be 4 (e_down e)).
  red in Hh. destruct e as [v1 v2 v3 v4 h nm]; cbn [e_hash e_name] in *. explode20 h Hh. reflexivity.
Qed.
Lemma foldl_ser fs : forall acc, foldl (fun acc e => acc ++ ser_entry e) acc fs = acc ++ concat (map ser_entry fs).
Proof. induction fs as [|f fs IH]; intros acc; simpl; [rewrite app_nil_r; done|]. rewrite IH, <- app_assoc. done. Qed.
Lemma ser_list_resp_eq r fs :
  ser_list_resp r fs = Nb 3 :: be 2 r ++ be 2 (N.of_nat (length fs) mod 65536) ++ concat (map ser_entry fs).
Proof.
  unfold ser_list_resp. rewrite foldl_ser.
  exp2 (be 2 r). exp2 (be 2 (N.of_nat (length fs) mod 65536)). reflexivity.
Qed.

(** ** Readers: [drop i d] is what is left *)
Lemma drop_plus {A} (d : list A) i n x rest : drop i d = x ++ rest -> length x = n -> drop (i + n) d = rest.
Proof. intros H Hx. rewrite <- drop_drop, H, drop_app_alt; done. Qed.
Lemma rd_slice_ok d i x rest n : i <= length d -> drop i d = x ++ rest -> length x = n ->
  rd_slice d i n = Ok x.
Proof.
  intros Hi H Hx. unfold rd_slice.
  assert (length (drop i d) = n + length rest) as Hl by (rewrite H, app_length; lia).
  rewrite drop_length in Hl.
  rewrite decide_True by lia. rewrite H, take_app_alt by done. done.
Qed.
(** [at_ d i rest]: the reader stands at index [i] with [rest] left *)
Definition at_ (d : list byte) (i : nat) (rest : list byte) : Prop := i <= length d /\ drop i d = rest.
Lemma at_step d i x rest n : at_ d i (x ++ rest) -> length x = n -> at_ d (i + n) rest.
Proof.
  intros [Hi H] Hx. split; [|eapply drop_plus; eauto].
  assert (length (drop i d) = n + length rest) as Hl by (rewrite H, app_length; lia).
  rewrite drop_length in Hl. lia.
Qed.
Lemma at_len d i rest : at_ d i rest -> length d = i + length rest.
Proof. intros [Hi <-]. rewrite drop_length. lia. Qed.

Lemma rd_byte_at d i b rest : at_ d i (b :: rest) -> rd_byte d i = Ok (b, i + 1) /\ at_ d (i + 1) rest.
Proof.
  intros H. split; [|apply (at_step d i [b] rest); done].
  unfold rd_byte. destruct H as [_ H].
  assert (d !! i = Some b) as ->; [|done].
  rewrite <- (Nat.add_0_r i), <- lookup_drop, H. done.
Qed.
Lemma rd_bytes_at d i x rest n : at_ d i (x ++ rest) -> length x = n ->
  rd_bytes n d i = Ok (x, i + n) /\ at_ d (i + n) rest.
Proof.
  intros H Hx. split; [|eapply at_step; done].
  unfold rd_bytes. destruct H as [Hi H]. rewrite (rd_slice_ok d i x rest n Hi H Hx). done.
Qed.
Lemma rd_hash_at d i h rest : at_ d i (h ++ rest) -> hash_wf h ->
  rd_hash d i = Ok (h, i + 20) /\ at_ d (i + 20) rest.
Proof.
  intros H Hx. split; [|eapply at_step; done].
  unfold rd_hash. destruct H as [Hi H]. rewrite (rd_slice_ok d i h rest 20 Hi H Hx).
  unfold rbind, from_slice. rewrite gocopy_full; [done|]. rewrite Hx. done.
Qed.
Lemma rd_u16_at d i n rest : at_ d i (be 2 n ++ rest) -> u16 n ->
  rd_u16 d i = Ok (n, i + 2) /\ at_ d (i + 2) rest.
Proof.
  intros H Hn. split; [|eapply at_step; [done|apply be_length]].
  unfold rd_u16. destruct H as [Hi H]. rewrite (rd_slice_ok d i _ rest 2 Hi H (be_length _ _)).
  unfold rbind. rewrite unbe_be_small; done.
Qed.
Lemma rd_u32_at d i n rest : at_ d i (be 4 n ++ rest) -> u32 n ->
  rd_u32 d i = Ok (n, i + 4) /\ at_ d (i + 4) rest.
Proof.
  intros H Hn. split; [|eapply at_step; [done|apply be_length]].
  unfold rd_u32. destruct H as [Hi H]. rewrite (rd_slice_ok d i _ rest 4 Hi H (be_length _ _)).
  unfold rbind. rewrite unbe_be_small; done.
Qed.
Lemma rd_u64_at d i n rest : at_ d i (be 8 n ++ rest) -> u64 n ->
  rd_u64 d i = Ok (n, i + 8) /\ at_ d (i + 8) rest.
Proof.
  intros H Hn. split; [|eapply at_step; [done|apply be_length]].
  unfold rd_u64. destruct H as [Hi H]. rewrite (rd_slice_ok d i _ rest 8 Hi H (be_length _ _)).
  unfold rbind. rewrite unbe_be_small; done.
Qed.
Lemma rd_u16s_at cs : forall d i rest, at_ d i (be2s cs ++ rest) -> Forall u16 cs ->
  rd_u16s (length cs) d i = Ok (cs, i + 2 * length cs) /\ at_ d (i + 2 * length cs) rest.
Proof.
  induction cs as [|c cs IH]; intros d i rest H Hc.
  - simpl. rewrite Nat.add_0_r. done.
  - inversion Hc as [|? ? H1 H2]; subst. unfold be2s in H. cbn [map concat] in H. rewrite <- app_assoc in H.
    destruct (rd_u16_at d i c _ H H1) as [E1 H']. destruct (IH d (i + 2) rest H' H2) as [E2 H''].
    cbn [rd_u16s length]. rewrite E1. cbn [rbind]. rewrite E2. cbn [rbind].
    replace (i + 2 * S (length cs)) with (i + 2 + 2 * length cs) by lia. done.
Qed.
Lemma be2s_app a b : be2s (a ++ b) = be2s a ++ be2s b.
Proof. unfold be2s. rewrite map_app, concat_app. done. Qed.
(** a chunk list of any length: the parser sees the first (length mod 256) *)
Lemma rd_slice_u16_at d i cs rest :
  at_ d i (Nb (N.of_nat (length cs)) :: be2s cs ++ rest) -> Forall u16 cs ->
  exists j, rd_slice_u16 d i = Ok (take (length cs mod 256) cs, j).
Proof.
  intros H Hc. unfold rd_slice_u16. destruct (rd_byte_at _ _ _ _ H) as [-> H'].
  cbn [rbind]. rewrite bN_Nb.
  assert (N.to_nat (N.of_nat (length cs) mod 256) = length cs mod 256) as -> by lia.
  set (k := length cs mod 256).
  rewrite <- (take_drop k cs), be2s_app, <- app_assoc in H'.
  assert (length (take k cs) = k) as Hk by (rewrite take_length; subst k; lia).
  destruct (rd_u16s_at (take k cs) d (i + 1) _ H') as [E _]; [apply Forall_take; done|].
  rewrite Hk in E. rewrite E. eauto.
Qed.

Lemma rd_string_at d i s rest : at_ d i (Nb (N.of_nat (Nat.min 255 (length s))) :: take 255 s ++ rest) ->
  exists j, rd_string d i = Ok (take 255 s, j) /\ at_ d j rest.
Proof.
  intros H. unfold rd_string. destruct (rd_byte_at _ _ _ _ H) as [-> H'].
  cbn [rbind]. rewrite bN_Nb.
  assert (N.to_nat (N.of_nat (Nat.min 255 (length s)) mod 256) = Nat.min 255 (length s)) as -> by lia.
  destruct H' as [Hi H']. rewrite (rd_slice_ok d _ (take 255 s) rest _ Hi H') by apply take_length.
  cbn [rbind]. eexists. split; [done|]. eapply at_step; [split; done|]. apply take_length.
Qed.
Lemma rd_entry_at d i e rest : at_ d i (ser_entry e ++ rest) -> entry_typed e ->
  exists j, rd_entry d i = Ok (cut_name e, j) /\ at_ d j rest.
Proof.
  intros H (T1 & T2 & T3 & T4 & T5). rewrite ser_entry_eq in H by done. rewrite <- !app_assoc in H.
  unfold rd_entry.
  destruct (rd_u64_at _ _ _ _ H T1) as [-> H1]; cbn [rbind].
  destruct (rd_u32_at _ _ _ _ H1 T2) as [-> H2]; cbn [rbind].
  destruct (rd_u32_at _ _ _ _ H2 T3) as [-> H3]; cbn [rbind].
  destruct (rd_u32_at _ _ _ _ H3 T4) as [-> H4]; cbn [rbind].
  destruct (rd_hash_at _ _ _ _ H4 T5) as [-> H5]; cbn [rbind].
  destruct (rd_string_at _ _ _ _ H5) as (j & -> & H6); cbn [rbind].
  eexists. split; done.
Qed.
Lemma rd_entries_at fs : forall d i rest, at_ d i (concat (map ser_entry fs) ++ rest) -> Forall entry_typed fs ->
  exists j, rd_entries (length fs) d i = Ok (map cut_name fs, j).
Proof.
  induction fs as [|f fs IH]; intros d i rest H HT; [eauto|].
  inversion HT as [|? ? T1 T2]; subst. cbn [map concat] in H. rewrite <- app_assoc in H.
  destruct (rd_entry_at _ _ _ _ H T1) as (j & E & H').
  destruct (IH d j rest H' T2) as (k & E').
  cbn [rd_entries length map]. rewrite E. cbn [rbind]. rewrite E'. eauto.
Qed.

Lemma at_0 b l : at_ (b :: l) 0 (b :: l).
Proof. split; simpl; [lia|done]. Qed.

(** ** C17, C20: discovery messages of any size *)
Lemma parse_disc_req r h cs tail : u16 r -> hash_wf h -> Forall u16 cs ->
  parse (serialize (DiscReq r h cs) ++ tail) = Ok (DiscReq r h (take (length cs mod 256) cs)).
Proof.
  intros Hr Hh Hc. cbn [serialize]. rewrite ser_disc_req_eq by done.
  cbn [app]. rewrite <- !app_assoc. cbn [app]. unfold parse.
  destruct (rd_byte_at _ _ _ _ (at_0 (Nb 0) (be 2 r ++ h ++ Nb (N.of_nat (length cs)) :: be2s cs ++ tail))) as [-> H].
  cbn [rbind]. rewrite bN_Nb. change (0 mod 256)%N with 0%N. cbn iota.
  destruct (rd_u16_at _ _ _ _ H Hr) as [-> H1]; cbn [rbind].
  destruct (rd_hash_at _ _ _ _ H1 Hh) as [-> H2]; cbn [rbind].
  destruct (rd_slice_u16_at _ _ _ _ H2 Hc) as (j & ->). done.
Qed.
Lemma parse_disc_resp a p r cs tail : length a = 4 -> u16 p -> u16 r -> Forall u16 cs ->
  parse (serialize (DiscResp a p r cs) ++ tail) = Ok (DiscResp a p r (take (length cs mod 256) cs)).
Proof.
  intros Ha Hp Hr Hc. cbn [serialize]. rewrite ser_disc_resp_eq by done.
  cbn [app]. rewrite <- !app_assoc. cbn [app]. unfold parse.
  destruct (rd_byte_at _ _ _ _ (at_0 (Nb 1) (be 2 r ++ a ++ be 2 p ++ Nb (N.of_nat (length cs)) :: be2s cs ++ tail))) as [-> H].
  cbn [rbind]. rewrite bN_Nb. change (1 mod 256)%N with 1%N. cbn iota.
  destruct (rd_u16_at _ _ _ _ H Hr) as [-> H1]; cbn [rbind].
  destruct (rd_bytes_at _ _ _ _ _ H1 Ha) as [-> H2]; cbn [rbind].
  destruct (rd_u16_at _ _ _ _ H2 Hp) as [-> H3]; cbn [rbind].
  destruct (rd_slice_u16_at _ _ _ _ H3 Hc) as (j & ->). done.
Qed.
Lemma parse_list_req r h tail : u16 r -> hash_wf h ->
  parse (serialize (ListReq r h) ++ tail) = Ok (ListReq r h).
Proof.
  intros Hr Hh. cbn [serialize]. rewrite ser_list_req_eq by done.
  cbn [app]. rewrite <- !app_assoc. unfold parse.
  destruct (rd_byte_at _ _ _ _ (at_0 (Nb 2) (be 2 r ++ h ++ tail))) as [-> H].
  cbn [rbind]. rewrite bN_Nb. change (2 mod 256)%N with 2%N. cbn iota.
  destruct (rd_u16_at _ _ _ _ H Hr) as [-> H1]; cbn [rbind].
  destruct (rd_hash_at _ _ _ _ H1 Hh) as [-> H2]; done.
Qed.
Lemma parse_list_resp r fs tail : u16 r -> Forall entry_typed fs ->
  parse (serialize (ListResp r fs) ++ tail)
  = Ok (ListResp r (map cut_name (take (N.to_nat (N.of_nat (length fs) mod 65536)) fs))).
Proof.
  intros Hr HT. cbn [serialize]. rewrite ser_list_resp_eq.
  cbn [app]. rewrite <- !app_assoc. unfold parse.
  destruct (rd_byte_at _ _ _ _ (at_0 (Nb 3) (be 2 r ++ be 2 (N.of_nat (length fs) mod 65536)
     ++ concat (map ser_entry fs) ++ tail))) as [-> H].
  cbn [rbind]. rewrite bN_Nb. change (3 mod 256)%N with 3%N. cbn iota.
  destruct (rd_u16_at _ _ _ _ H Hr) as [-> H1]; cbn [rbind].
  destruct (rd_u16_at _ _ _ _ H1) as [-> H2]; [unfold u16; lia|]; cbn [rbind].
  set (k := N.to_nat (N.of_nat (length fs) mod 65536)) in *.
  assert (length (take k fs) = k) as Hk.
  { rewrite take_length. apply Nat.min_l. subst k. lia. }
  revert H2. generalize (Nb 3 :: be 2 r ++ be 2 (N.of_nat (length fs) mod 65536) ++ concat (map ser_entry fs) ++ tail).
  intros D H2.
  rewrite <- (take_drop k fs), map_app, concat_app, <- app_assoc in H2.
  destruct (rd_entries_at (take k fs) _ _ _ H2) as (j & E); [apply Forall_take; done|].
  rewrite Hk in E. rewrite E. done.
Qed.
Lemma parse_open h c w tail : hash_wf h -> u16 c -> u16 w ->
  parse (serialize (OpenReq h c w) ++ tail) = Ok (OpenReq h c w).
Proof.
  intros Hh Hc Hw. cbn [serialize]. rewrite ser_open_eq by done.
  cbn [app]. rewrite <- !app_assoc. unfold parse.
  destruct (rd_byte_at _ _ _ _ (at_0 (Nb 4) (h ++ be 2 c ++ be 2 w ++ zeros 7 ++ tail))) as [-> H].
  cbn [rbind]. rewrite bN_Nb. change (4 mod 256)%N with 4%N. cbn iota.
  destruct (rd_hash_at _ _ _ _ H Hh) as [-> H1]; cbn [rbind].
  destruct (rd_u16_at _ _ _ _ H1 Hc) as [-> H2]; cbn [rbind].
  destruct (rd_u16_at _ _ _ _ H2 Hw) as [-> H3]; done.
Qed.
Lemma parse_ack o tail : u32 o -> parse (serialize (Ack o) ++ tail) = Ok (Ack o).
Proof.
  intros Ho. cbn [serialize]. rewrite ser_ack_eq. cbn [app]. unfold parse.
  destruct (rd_byte_at _ _ _ _ (at_0 (Nb 6) (be 4 o ++ tail))) as [-> H].
  cbn [rbind]. rewrite bN_Nb. change (6 mod 256)%N with 6%N. cbn iota.
  destruct (rd_u32_at _ _ _ _ H Ho) as [-> H1]; done.
Qed.

Lemma map_cut fs : Forall (fun e => length (e_name e) <= 255) fs -> map cut_name fs = fs.
Proof.
  induction 1 as [|e fs He _ IH]; [done|]. cbn [map]. rewrite IH. f_equal.
  unfold cut_name. rewrite take_ge by lia. destruct e; done.
Qed.
Lemma wire_view_id m : within_limits m -> wire_view m = m.
Proof.
  destruct m; cbn [within_limits wire_view]; try done.
  - intros H. rewrite Nat.mod_small, take_ge by lia. done.
  - intros H. rewrite Nat.mod_small, take_ge by lia. done.
  - intros [H1 H2]. rewrite N.mod_small, take_ge by lia. rewrite map_cut by done. done.
Qed.
Lemma parse_serialize m tail : msg_typed m -> ~ is_data m ->
  parse (serialize m ++ tail) = Ok (wire_view m).
Proof.
  destruct m; cbn [msg_typed is_data wire_view]; intros H Hd.
  - destruct H as (?&?&?). apply parse_disc_req; done.
  - destruct H as (?&?&?&?). apply parse_disc_resp; done.
  - destruct H as (?&?). apply parse_list_req; done.
  - destruct H as (?&?). apply parse_list_resp; done.
  - destruct H as (?&?&?). apply parse_open; done.
  - done.
  - apply parse_ack; done.
Qed.
Lemma roundtrip m tail : msg_typed m -> within_limits m -> ~ is_data m ->
  parse (serialize m ++ tail) = Ok m.
Proof. intros. rewrite parse_serialize, wire_view_id; done. Qed.

Lemma udp_buffer_fits n d : length d <= n -> udp_buffer n d = d ++ zeros (n - length d).
Proof.
  intros H. unfold udp_buffer, gocopy. rewrite zeros_length, take_ge by done.
  unfold zeros. rewrite drop_replicate. done.
Qed.
Lemma udp_buffer_long n d : n <= length d -> udp_buffer n d = take n d.
Proof.
  intros H. unfold udp_buffer, gocopy. rewrite zeros_length.
  rewrite (drop_ge (zeros n)) by (rewrite zeros_length; done). rewrite app_nil_r. done.
Qed.
Lemma udp_buffer_length n d : length (udp_buffer n d) = n.
Proof. unfold udp_buffer. rewrite gocopy_length. apply zeros_length. Qed.

(** ** sizes *)
Lemma concat_ser_length fs : Forall entry_typed fs -> length (concat (map ser_entry fs)) = entries_size fs.
Proof.
  induction 1 as [|e fs (_&_&_&_&Hh) _ IH]; [done|]. cbn [map concat entries_size].
  rewrite app_length, IH, ser_entry_eq by done. rewrite !app_length, !be_length. cbn [length].
  rewrite take_length, Hh. lia.
Qed.
Lemma serialize_length m : msg_typed m -> length (serialize m) = wire_size m.
Proof.
  destruct m; cbn [msg_typed serialize wire_size]; intros H.
  - destruct H as (?&Hh&?). rewrite ser_disc_req_eq by done. cbn [length].
    rewrite !app_length, be_length, Hh. cbn [length]. rewrite be2s_length. lia.
  - destruct H as (Ha&?&?&?). rewrite ser_disc_resp_eq by done. cbn [length].
    rewrite !app_length, !be_length, Ha. cbn [length]. rewrite be2s_length. lia.
  - destruct H as (?&Hh). rewrite ser_list_req_eq by done. cbn [length].
    rewrite !app_length, be_length, Hh. lia.
  - destruct H as (?&Hf). rewrite ser_list_resp_eq. cbn [length].
    rewrite !app_length, !be_length, concat_ser_length by done. lia.
  - destruct H as (Hh&?&?). rewrite ser_open_eq by done. cbn [length].
    rewrite !app_length, !be_length, Hh, zeros_length. lia.
  - rewrite ser_data_eq. cbn [length]. rewrite !app_length, be_length. lia.
  - rewrite ser_ack_eq. cbn [length]. rewrite be_length. lia.
Qed.
Lemma serialize_type m : msg_typed m -> exists rest, serialize m = Nb (msg_type m) :: rest.
Proof.
  destruct m; cbn [msg_typed serialize msg_type]; intros H.
  - destruct H as (?&Hh&?). rewrite ser_disc_req_eq by done. eauto.
  - destruct H as (Ha&?&?&?). rewrite ser_disc_resp_eq by done. eauto.
  - destruct H as (?&Hh). rewrite ser_list_req_eq by done. eauto.
  - rewrite ser_list_resp_eq. eauto.
  - destruct H as (Hh&?&?). rewrite ser_open_eq by done. eauto.
  - rewrite ser_data_eq. eauto.
  - rewrite ser_ack_eq. eauto.
Qed.

(** ** C19: data packets *)
Lemma parse_data_ser o d n : u32 o -> 5 + length d <= n ->
  parse_data (udp_clipped n (serialize (Data o d))) = Ok (o, d).
Proof.
  intros Ho Hn. cbn [serialize]. rewrite ser_data_eq.
  assert (length (Nb 5 :: be 4 o ++ d) = 5 + length d) as Hl.
  { cbn [length]. rewrite app_length, be_length. lia. }
  unfold udp_clipped. rewrite udp_buffer_fits by lia. rewrite Hl.
  set (z := zeros _).
  assert (length z = n - (5 + length d)) as Hz by (subst z; apply zeros_length).
  unfold parse_data, sl_range, sl_from, slice_bytes. cbn [arr slen].
  rewrite decide_True by (rewrite app_length; lia). cbn [rbind].
  rewrite decide_True by lia. cbn [rbind].
  cbn [app]. rewrite <- app_assoc. change (drop 1 (?a :: ?b)) with (drop 0 b). cbn [drop]. rewrite ?drop_0, (take_app_alt (be 4 o)) by (rewrite be_length; done).
  rewrite unbe_be_small by done.
  f_equal. f_equal.
  rewrite Nat.min_r by lia.
  cbn [take drop Nat.add]. rewrite app_assoc.
  rewrite (take_app_alt (be 4 o ++ d) z) by (rewrite app_length, be_length; done).
  rewrite drop_app_alt by (rewrite be_length; done). done.
Qed.
Lemma split_ok h size data : hash_wf h -> u32 size ->
  split_packet (h ++ be 4 size ++ data) = Ok (h, size, data).
Proof.
  intros Hh Hs. unfold split_packet.
  rewrite decide_True by (rewrite !app_length, be_length, Hh; lia).
  rewrite (take_app_alt h) by done. rewrite (drop_app_alt h) by done.
  rewrite take_app_alt by (rewrite be_length; done).
  rewrite gocopy_full by (rewrite Hh; done). rewrite unbe_be_small by done.
  rewrite (app_assoc h), drop_app_alt by (rewrite app_length, Hh, be_length; done). done.
Qed.
Lemma split_panics data : is_panic (split_packet data) <-> length data < 24.
Proof.
  unfold split_packet. destruct (decide (24 <= length data)).
  - split; [intros [? ?]; done|lia].
  - split; [lia|]. intros _. eexists; done.
Qed.
Lemma parse_data_panics n d : 5 <= n ->
  is_panic (parse_data (udp_clipped n d)) <-> length d < 5.
Proof.
  intros Hn. unfold parse_data, udp_clipped, sl_range, sl_from. cbn [arr slen].
  rewrite udp_buffer_length, decide_True by lia. cbn [rbind].
  destruct (decide (5 <= Nat.min n (length d))).
  - split; [intros [? ?]; done|lia].
  - split; [lia|]. intros _. eexists; done.
Qed.
Lemma parse_data_total n d : 5 <= n -> ~ is_err (parse_data (udp_clipped n d)).
Proof.
  intros Hn. unfold parse_data, udp_clipped, sl_range, sl_from. cbn [arr slen].
  rewrite udp_buffer_length, decide_True by lia. cbn [rbind].
  destruct (decide (5 <= Nat.min n (length d))); intros [? ?]; done.
Qed.

(** ** C21: parsing arbitrary bytes *)
Lemma rd_slice_cases d i n :
  (i + n <= length d /\ rd_slice d i n = Ok (take n (drop i d)))
  \/ (length d < i + n /\ is_panic (rd_slice d i n)).
Proof.
  unfold rd_slice. destruct (decide (i + n <= length d)); [left; done|right].
  split; [lia|]. eexists; done.
Qed.
Lemma rd_byte_cases d i :
  (exists b, i < length d /\ d !! i = Some b /\ rd_byte d i = Ok (b, i + 1))
  \/ (length d <= i /\ is_panic (rd_byte d i)).
Proof.
  unfold rd_byte. destruct (d !! i) as [b|] eqn:E.
  - left. exists b. split; [eapply lookup_lt_Some; done|done].
  - right. split; [apply lookup_ge_None_1; done|]. eexists; done.
Qed.
Ltac rs d i n H := let E := fresh in let H' := fresh in
  destruct (rd_slice_cases d i n) as [[H E]|[H H']]; [rewrite ?E; cbn [rbind]|].

Lemma rd_entry_cases d i : i <= length d ->
  (exists e j len, rd_entry d i = Ok (e, j) /\ d !! (i + 40) = Some len /\
     j = i + 41 + N.to_nat (bN len) /\ j <= length d)
  \/ (is_panic (rd_entry d i) /\
      ~ (exists len, d !! (i + 40) = Some len /\ i + 41 + N.to_nat (bN len) <= length d)).
Proof.
  intros Hi. unfold rd_entry, rd_u64, rd_u32, rd_hash, rd_string.
  destruct (decide (i + 40 < length d)) as [Hl|Hl].
  - destruct (rd_slice_cases d i 8) as [[_ ->]|[? _]]; [|lia]; cbn [rbind].
    destruct (rd_slice_cases d (i + 8) 4) as [[_ ->]|[? _]]; [|lia]; cbn [rbind].
    destruct (rd_slice_cases d (i + 8 + 4) 4) as [[_ ->]|[? _]]; [|lia]; cbn [rbind].
    destruct (rd_slice_cases d (i + 8 + 4 + 4) 4) as [[_ ->]|[? _]]; [|lia]; cbn [rbind].
    destruct (rd_slice_cases d (i + 8 + 4 + 4 + 4) 20) as [[_ ->]|[? _]]; [|lia]; cbn [rbind].
    replace (i + 8 + 4 + 4 + 4 + 20) with (i + 40) by lia.
    destruct (rd_byte_cases d (i + 40)) as [(b & _ & Hb & ->)|[? _]]; [|lia]; cbn [rbind].
    destruct (rd_slice_cases d (i + 40 + 1) (N.to_nat (bN b))) as [[Hle ->]|[Hle [p ->]]]; cbn [rbind].
    + left. do 3 eexists. split; [done|]. split; [done|]. split; lia.
    + right. split; [eexists; done|]. intros (len & Hlen & ?).
      assert (len = b) as -> by congruence. lia.
  - right. split.
    + destruct (rd_slice_cases d i 8) as [[_ ->]|[? [? ->]]]; [cbn [rbind]|eexists; done].
      destruct (rd_slice_cases d (i + 8) 4) as [[_ ->]|[? [? ->]]]; [cbn [rbind]|eexists; done].
      destruct (rd_slice_cases d (i + 8 + 4) 4) as [[_ ->]|[? [? ->]]]; [cbn [rbind]|eexists; done].
      destruct (rd_slice_cases d (i + 8 + 4 + 4) 4) as [[_ ->]|[? [? ->]]]; [cbn [rbind]|eexists; done].
      destruct (rd_slice_cases d (i + 8 + 4 + 4 + 4) 20) as [[_ ->]|[? [? ->]]]; [cbn [rbind]|eexists; done].
      destruct (rd_byte_cases d (i + 8 + 4 + 4 + 4 + 20)) as [(b & ? & _)|[? [? ->]]]; [lia|eexists; done].
    + intros (len & Hlen & _). apply lookup_lt_Some in Hlen. lia.
Qed.
Lemma drop_entry (d : list byte) i len : i <= length d -> d !! (i + 40) = Some len -> i + 41 + N.to_nat (bN len) <= length d ->
  drop i d = take 40 (drop i d) ++ len :: take (N.to_nat (bN len)) (drop (i + 41) d)
             ++ drop (i + 41 + N.to_nat (bN len)) d.
Proof.
  intros Hi Hlen Hle. rewrite <- (drop_drop d _ (i + 41)), take_drop.
  rewrite <- (take_drop 40 (drop i d)) at 1. f_equal.
  rewrite drop_drop. rewrite (drop_S _ len) by done. f_equal. f_equal. lia.
Qed.
Lemma rd_entries_cases n : forall d i, i <= length d ->
  (exists es j, rd_entries n d i = Ok (es, j) /\ length es = n /\ entries_fit n (drop i d))
  \/ (is_panic (rd_entries n d i) /\ ~ entries_fit n (drop i d)).
Proof.
  induction n as [|n IH]; intros d i Hi.
  - left. do 2 eexists. split; [done|]. split; [done|]. constructor.
  - cbn [rd_entries].
    destruct (rd_entry_cases d i Hi) as [(e & j & len & -> & Hlen & -> & Hj)|[[p ->] Hno]]; cbn [rbind].
    + destruct (IH d _ Hj) as [(es & k & -> & Hn & Hfit)|[[p ->] Hno]]; cbn [rbind].
      * left. do 2 eexists. split; [done|]. split; [simpl; lia|].
        rewrite (drop_entry d i len) by done. constructor; [|  |done].
        { rewrite take_length, drop_length. lia. }
        { rewrite take_length, drop_length. lia. }
      * right. split; [eexists; done|]. intros Hfit. apply Hno.
        inversion Hfit as [|? fixed len' name rest Hf Hnm Hr Heq]; subst.
        assert (d !! (i + 40) = Some len') as Hl'.
        { rewrite <- lookup_drop, <- H. rewrite lookup_app_r by lia. rewrite Hf, Nat.sub_diag. done. }
        assert (len' = len) as -> by congruence.
        replace (i + 41 + N.to_nat (bN len)) with (i + (41 + N.to_nat (bN len))) by lia.
        rewrite <- drop_drop, <- H.
        replace (fixed ++ len :: name ++ rest) with ((fixed ++ len :: name) ++ rest) by (rewrite <- app_assoc; done).
        rewrite drop_app_alt; [done|]. rewrite app_length. simpl. lia.
    + right. split; [eexists; done|]. intros Hfit. apply Hno.
      inversion Hfit as [|? fixed len' name rest Hf Hnm Hr Heq]; subst.
      exists len'. split.
      * rewrite <- lookup_drop, <- H. rewrite lookup_app_r by lia. rewrite Hf, Nat.sub_diag. done.
      * apply (f_equal length) in H. rewrite drop_length, app_length in H. cbn [length] in H.
        rewrite app_length in H. lia.
Qed.

Lemma rd_u16s_total n : forall d i, i + 2 * n <= length d -> exists vs, rd_u16s n d i = Ok (vs, i + 2 * n) /\ length vs = n.
Proof.
  induction n as [|n IH]; intros d i H.
  - exists []. simpl. rewrite Nat.add_0_r. done.
  - cbn [rd_u16s]. unfold rd_u16. destruct (rd_slice_cases d i 2) as [[_ ->]|[? _]]; [|lia]. cbn [rbind].
    destruct (IH d (i + 2)) as (vs & -> & Hv); [lia|]. cbn [rbind]. eexists. split; [f_equal; f_equal; lia|simpl; lia].
Qed.
Lemma rd_slice_u16_total d i : i + 511 <= length d -> exists vs j, rd_slice_u16 d i = Ok (vs, j).
Proof.
  intros H. unfold rd_slice_u16. destruct (rd_byte_cases d i) as [(b & _ & _ & ->)|[? _]]; [|lia]. cbn [rbind].
  pose proof (bN_lt b).
  destruct (rd_u16s_total (N.to_nat (bN b)) d (i + 1)) as (vs & -> & _); [lia|]. eauto.
Qed.

(** the type byte and, for listings, the entry count of a buffer *)
Lemma parse_total ty rest : 533 <= length rest -> (bN ty <> 3)%N -> ~ is_panic (parse (ty :: rest)).
Proof.
  intros Hl Hty. assert (length (ty :: rest) = S (length rest)) as HL by done.
  set (d := ty :: rest) in *. unfold parse.
  change (rd_byte d 0) with (@Ok (byte * nat) (ty, 1)). cbn [rbind].
  assert (forall x, bN ty = x -> ~ is_panic (parse d)) as Haux; [|].
  2:{ exact (Haux _ eq_refl). }
  intros x Hx. unfold parse. change (rd_byte d 0) with (@Ok (byte * nat) (ty, 1)). cbn [rbind]. rewrite Hx in *.
  unfold rd_u16, rd_hash, rd_bytes, rd_u32.
  destruct x as [|x]; [|destruct (decide (x = 1)%positive); [subst|destruct (decide (x = 2)%positive);
    [subst|destruct (decide (x = 4)%positive); [subst|destruct (decide (x = 6)%positive); [subst|]]]]].
  - destruct (rd_slice_cases d 1 2) as [[_ ->]|[? _]]; [|lia]; cbn [rbind].
    destruct (rd_slice_cases d (1+2) 20) as [[_ ->]|[? _]]; [|lia]; cbn [rbind].
    destruct (rd_slice_u16_total d (1 + 2 + 20)) as (? & ? & ->); [lia|]. intros [? ?]; done.
  - destruct (rd_slice_cases d 1 2) as [[_ ->]|[? _]]; [|lia]; cbn [rbind].
    destruct (rd_slice_cases d (1+2) 4) as [[_ ->]|[? _]]; [|lia]; cbn [rbind].
    destruct (rd_slice_cases d (1+2+4) 2) as [[_ ->]|[? _]]; [|lia]; cbn [rbind].
    destruct (rd_slice_u16_total d (1 + 2 + 4 + 2)) as (? & ? & ->); [lia|]. intros [? ?]; done.
  - destruct (rd_slice_cases d 1 2) as [[_ ->]|[? _]]; [|lia]; cbn [rbind].
    destruct (rd_slice_cases d (1+2) 20) as [[_ ->]|[? _]]; [|lia]; cbn [rbind]. intros [? ?]; done.
  - destruct (rd_slice_cases d 1 20) as [[_ ->]|[? _]]; [|lia]; cbn [rbind].
    destruct (rd_slice_cases d (1+20) 2) as [[_ ->]|[? _]]; [|lia]; cbn [rbind].
    destruct (rd_slice_cases d (1+20+2) 2) as [[_ ->]|[? _]]; [|lia]; cbn [rbind]. intros [? ?]; done.
  - destruct (rd_slice_cases d 1 4) as [[_ ->]|[? _]]; [|lia]; cbn [rbind]. intros [? ?]; done.
  - assert (x <> 3%positive) by congruence.
    destruct x as [[|[]|]|[[]|[]|]|]; try done; intros [? ?]; done.
Qed.
Lemma parse_unknown ty rest : bN ty ∉ [0;1;2;3;4;6]%N -> is_err (parse (ty :: rest)).
Proof.
  intros H. unfold parse. change (rd_byte (ty :: rest) 0) with (@Ok (byte * nat) (ty, 1)). cbn [rbind].
  destruct (bN ty) as [|x]; [exfalso; apply H; set_solver|].
  destruct x as [[|[]|]|[[]|[]|]|]; try (eexists; done); exfalso; apply H; set_solver.
Qed.
Lemma parse_type3 rest : 4 <= length rest ->
  (is_panic (parse (x03 :: rest)) <->
   ~ entries_fit (N.to_nat (unbe (take 2 (drop 2 rest)))) (drop 4 rest))
  /\ ~ is_err (parse (x03 :: rest)).
Proof.
  intros Hl. assert (length (x03 :: rest) = S (length rest)) as HL by done.
  unfold parse. change (rd_byte (x03 :: rest) 0) with (@Ok (byte * nat) (x03, 1)). cbn [rbind].
  change (bN x03) with 3%N. cbn iota. unfold rd_u16.
  destruct (rd_slice_cases (x03 :: rest) 1 2) as [[_ ->]|[? _]]; [|lia]; cbn [rbind].
  destruct (rd_slice_cases (x03 :: rest) (1+2) 2) as [[_ ->]|[? _]]; [|lia]; cbn [rbind].
  change (drop (1 + 2) (x03 :: rest)) with (drop 2 rest).
  destruct (rd_entries_cases (N.to_nat (unbe (take 2 (drop 2 rest)))) (x03 :: rest) (1+2+2)) as
    [(es & j & -> & _ & Hf)|[[p ->] Hf]]; [lia| |]; cbn [rbind];
    change (drop (1 + 2 + 2) (x03 :: rest)) with (drop 4 rest) in Hf.
  - split; [split; [intros [? ?]; done|done]|intros [? ?]; done].
  - split; [split; [done|intros; eexists; done]|intros [? ?]; done].
Qed.

(** ** C22 *)
Lemma wire_unique m1 m2 t1 t2 : msg_typed m1 -> msg_typed m2 -> within_limits m1 -> within_limits m2 ->
  ~ is_data m1 -> ~ is_data m2 -> serialize m1 ++ t1 = serialize m2 ++ t2 -> m1 = m2.
Proof.
  intros T1 T2 L1 L2 D1 D2 H.
  pose proof (roundtrip m1 t1 T1 L1 D1) as R1. pose proof (roundtrip m2 t2 T2 L2 D2) as R2.
  rewrite H, R2 in R1. congruence.
Qed.
Lemma wire_data_unique o1 d1 o2 d2 : u32 o1 -> u32 o2 -> serialize (Data o1 d1) = serialize (Data o2 d2) ->
  o1 = o2 /\ d1 = d2.
Proof.
  intros H1 H2 H. cbn [serialize] in H. rewrite !ser_data_eq in H. apply (f_equal tail) in H. cbn [tail] in H.
  apply app_inj_1 in H as [Ho Hd]; [|rewrite !be_length; done].
  split; [|done]. apply be_inj in Ho; done.
Qed.
Lemma wire_data_other m o d t1 t2 : msg_typed m -> ~ is_data m -> serialize m ++ t1 <> serialize (Data o d) ++ t2.
Proof.
  intros T D H. destruct (serialize_type m T) as (r & E). rewrite E in H. cbn [serialize] in H.
  rewrite ser_data_eq in H. cbn [app] in H. apply (f_equal (hd x00)) in H. cbn [hd] in H. apply (f_equal bN) in H. rewrite !bN_Nb in H.
  destruct m; cbn [msg_type] in H; cbn in H; try discriminate H. done.
Qed.

(** ** Statements of PropMessages.v *)
Lemma C17_req_lemma reqid h chunks tail :
  (reqid < 65536)%N -> length h = 20 -> Forall (fun c => c < 65536)%N chunks -> length chunks <= 255 ->
  parse (serialize (DiscReq reqid h chunks) ++ tail) = Ok (DiscReq reqid h chunks).
Proof. intros. apply roundtrip; cbn [msg_typed within_limits is_data]; unfold u16, hash_wf; intuition. Qed.
Lemma C17_resp_lemma addr port reqid chunks tail :
  length addr = 4 -> (port < 65536)%N -> (reqid < 65536)%N ->
  Forall (fun c => c < 65536)%N chunks -> length chunks <= 255 ->
  parse (serialize (DiscResp addr port reqid chunks) ++ tail) = Ok (DiscResp addr port reqid chunks).
Proof. intros. apply roundtrip; cbn [msg_typed within_limits is_data]; unfold u16, hash_wf; intuition. Qed.
Lemma C17_buffer_lemma m : msg_typed m ->
  match m with DiscReq _ _ chunks | DiscResp _ _ _ chunks => length chunks <= 255 | _ => False end ->
  parse (udp_buffer 1024 (serialize m)) = Ok m.
Proof.
  intros HT HL. rewrite udp_buffer_fits.
  - apply roundtrip; [done|by destruct m|by destruct m; intros []].
  - rewrite serialize_length by done. destruct m; try done; cbn [wire_size]; lia.
Qed.
Lemma C18_resp_lemma reqid files tail :
  (reqid < 65536)%N -> (N.of_nat (length files) <= 65535)%N ->
  Forall (fun e => entry_typed e /\ length (e_name e) <= 255) files ->
  parse (serialize (ListResp reqid files) ++ tail) = Ok (ListResp reqid files).
Proof.
  intros Hr Hl HT. apply Forall_and in HT as [HT HN]. apply roundtrip; cbn [msg_typed within_limits is_data]; unfold u16; intuition.
Qed.
Lemma C19_panic_lemma datagram n : 5 <= n ->
  (is_panic (parse_data (udp_clipped n datagram)) <-> length datagram < 5)
  /\ ~ is_err (parse_data (udp_clipped n datagram)).
Proof. intros. split; [apply parse_data_panics; done|apply parse_data_total; done]. Qed.
Lemma C20_disc_lemma reqid h addr port chunks tail :
  (reqid < 65536)%N -> length h = 20 -> length addr = 4 -> (port < 65536)%N ->
  Forall (fun c => c < 65536)%N chunks ->
  parse (serialize (DiscReq reqid h chunks) ++ tail)
    = Ok (DiscReq reqid h (take (length chunks mod 256) chunks))
  /\ parse (serialize (DiscResp addr port reqid chunks) ++ tail)
    = Ok (DiscResp addr port reqid (take (length chunks mod 256) chunks)).
Proof. intros. split; [apply parse_disc_req|apply parse_disc_resp]; done. Qed.
Lemma C21_total_lemma ty rest : 534 <= length (ty :: rest) -> bN ty <> 3%N -> ~ is_panic (parse (ty :: rest)).
Proof. intros H. apply parse_total. simpl in H. lia. Qed.

Lemma parse_known_not_err ty rest : bN ty ∈ [0;1;2;3;4;6]%N -> ~ is_err (parse (ty :: rest)).
Proof.
  intros H [e He]. unfold parse in He.
  change (rd_byte (ty :: rest) 0) with (@Ok (byte * nat) (ty, 1)) in He. cbn [rbind] in He.
  assert (forall n d i e, rd_u16s n d i <> Err e) as Hu16s.
  { induction n as [|n IH]; intros d i e0; cbn [rd_u16s]; [done|]. unfold rd_u16, rd_slice.
    case_decide; cbn [rbind]; [|done]. intros Hx. destruct (rd_u16s n d (i+2)) as [[? ?]| |] eqn:E; cbn [rbind] in Hx; try done.
    eapply IH; exact E. }
  assert (forall d i e, rd_slice_u16 d i <> Err e) as Hs16.
  { intros d i e0. unfold rd_slice_u16, rd_byte. destruct (d !! i); cbn [rbind]; [apply Hu16s|done]. }
  assert (forall d i e, rd_entry d i <> Err e) as Hent.
  { intros d i e0. unfold rd_entry, rd_u64, rd_u32, rd_hash, rd_string, rd_slice, rd_byte.
    repeat (first [case_decide | match goal with |- context[?d !! ?i] => destruct (d !! i) end]; cbn [rbind]; try done). }
  assert (forall n d i e, rd_entries n d i <> Err e) as Hents.
  { induction n as [|n IH]; intros d i e0; cbn [rd_entries]; [done|].
    destruct (rd_entry d i) as [[? j]| |] eqn:E; cbn [rbind]; try done; [|eapply Hent in E; done].
    destruct (rd_entries n d j) as [[? ?]| |] eqn:E'; cbn [rbind]; try done. eapply IH in E'. done. }
  assert (bN ty = 0 \/ bN ty = 1 \/ bN ty = 2 \/ bN ty = 3 \/ bN ty = 4 \/ bN ty = 6)%N as Hc by set_solver.
  unfold rd_u16, rd_hash, rd_bytes, rd_u32, rd_slice in He.
  destruct Hc as [E|[E|[E|[E|[E|E]]]]]; rewrite E in He; repeat (case_decide; cbn [rbind] in He; try done).
  - destruct (rd_slice_u16 _ _) as [[? ?]| |] eqn:E'; cbn [rbind] in He; try done. eapply Hs16; done.
  - destruct (rd_slice_u16 _ _) as [[? ?]| |] eqn:E'; cbn [rbind] in He; try done. eapply Hs16; done.
  - destruct (rd_entries _ _ _) as [[? ?]| |] eqn:E'; cbn [rbind] in He; try done. eapply Hents; done.
Qed.
Lemma C21_err_lemma ty rest : 534 <= length (ty :: rest) ->
  (is_err (parse (ty :: rest)) <-> bN ty ∉ [0; 1; 2; 3; 4; 6]%N).
Proof.
  intros _. split.
  - intros He Hin. eapply parse_known_not_err; done.
  - apply parse_unknown.
Qed.

(** typing of parsed values *)
Lemma rd_u16_typed d i v j : rd_u16 d i = Ok (v, j) -> u16 v.
Proof.
  unfold rd_u16. destruct (rd_slice_cases d i 2) as [[Hl E]|[_ [p E]]]; rewrite E; cbn [rbind]; [|done].
  intros [= <- _]. unfold u16. pose proof (unbe_lt (take 2 (drop i d))) as H.
  rewrite take_length, drop_length, Nat.min_l in H by lia. exact H.
Qed.
Lemma rd_u32_typed d i v j : rd_u32 d i = Ok (v, j) -> u32 v.
Proof.
  unfold rd_u32. destruct (rd_slice_cases d i 4) as [[Hl E]|[_ [p E]]]; rewrite E; cbn [rbind]; [|done].
  intros [= <- _]. unfold u32. pose proof (unbe_lt (take 4 (drop i d))) as H.
  rewrite take_length, drop_length, Nat.min_l in H by lia. exact H.
Qed.
Lemma rd_u64_typed d i v j : rd_u64 d i = Ok (v, j) -> u64 v.
Proof.
  unfold rd_u64. destruct (rd_slice_cases d i 8) as [[Hl E]|[_ [p E]]]; rewrite E; cbn [rbind]; [|done].
  intros [= <- _]. unfold u64. pose proof (unbe_lt (take 8 (drop i d))) as H.
  rewrite take_length, drop_length, Nat.min_l in H by lia. exact H.
Qed.
Lemma rd_hash_typed d i v j : rd_hash d i = Ok (v, j) -> hash_wf v.
Proof.
  unfold rd_hash. destruct (rd_slice_cases d i 20) as [[Hl E]|[_ [p E]]]; rewrite E; cbn [rbind]; [|done].
  intros [= <- _]. unfold hash_wf, from_slice. rewrite gocopy_length. done.
Qed.
Lemma rd_u16s_typed n : forall d i vs j, rd_u16s n d i = Ok (vs, j) -> Forall u16 vs /\ length vs = n.
Proof.
  induction n as [|n IH]; intros d i vs j; cbn [rd_u16s].
  - intros [= <- _]. done.
  - destruct (rd_u16 d i) as [[v k]| |] eqn:E; cbn [rbind]; try done.
    destruct (rd_u16s n d k) as [[ws l]| |] eqn:E'; cbn [rbind]; try done.
    intros [= <- _]. apply rd_u16_typed in E. apply IH in E' as [H1 H2]. split; [constructor; done|simpl; lia].
Qed.
Lemma rd_slice_u16_typed d i vs j : rd_slice_u16 d i = Ok (vs, j) -> Forall u16 vs /\ length vs <= 255.
Proof.
  unfold rd_slice_u16. destruct (rd_byte d i) as [[b k]| |] eqn:E; cbn [rbind]; try done.
  intros H. apply rd_u16s_typed in H as [H1 H2]. split; [done|]. pose proof (bN_lt b). lia.
Qed.
Lemma rd_entry_typed d i e j : rd_entry d i = Ok (e, j) -> entry_typed e /\ length (e_name e) <= 255.
Proof.
  unfold rd_entry.
  destruct (rd_u64 _ _) as [[v1 k1]| |] eqn:E1; cbn [rbind]; try done.
  destruct (rd_u32 _ k1) as [[v2 k2]| |] eqn:E2; cbn [rbind]; try done.
  destruct (rd_u32 _ k2) as [[v3 k3]| |] eqn:E3; cbn [rbind]; try done.
  destruct (rd_u32 _ k3) as [[v4 k4]| |] eqn:E4; cbn [rbind]; try done.
  destruct (rd_hash _ _) as [[v5 k5]| |] eqn:E5; cbn [rbind]; try done.
  unfold rd_string. destruct (rd_byte _ _) as [[b k6]| |] eqn:E6; cbn [rbind]; try done.
  destruct (rd_slice_cases d k6 (N.to_nat (bN b))) as [[Hl ->]|[_ [p ->]]]; cbn [rbind]; [|done].
  intros [= <- _]. cbn [e_name e_size e_count e_chunk e_down e_hash entry_typed].
  split.
  - apply rd_u64_typed in E1. apply rd_u32_typed in E2, E3, E4. apply rd_hash_typed in E5. done.
  - rewrite take_length. pose proof (bN_lt b). lia.
Qed.
Lemma rd_entries_typed n : forall d i es j, rd_entries n d i = Ok (es, j) ->
  Forall entry_typed es /\ Forall (fun e => length (e_name e) <= 255) es /\ length es = n.
Proof.
  induction n as [|n IH]; intros d i es j; cbn [rd_entries].
  - intros [= <- _]. done.
  - destruct (rd_entry d i) as [[v k]| |] eqn:E; cbn [rbind]; try done.
    destruct (rd_entries n d k) as [[ws l]| |] eqn:E'; cbn [rbind]; try done.
    intros [= <- _]. apply rd_entry_typed in E as [? ?]. apply IH in E' as (H1 & H2 & H3).
    split; [constructor; done|]. split; [constructor; done|simpl; lia].
Qed.
Lemma C21_typed_lemma ty rest m : parse (ty :: rest) = Ok m -> msg_typed m /\ within_limits m /\ msg_type m = bN ty.
Proof.
  unfold parse. change (rd_byte (ty :: rest) 0) with (@Ok (byte * nat) (ty, 1)). cbn [rbind].
  destruct (bN ty) as [|x] eqn:Hty.
  - destruct (rd_u16 _ 1) as [[v1 k1]| |] eqn:E1; cbn [rbind]; try done.
    destruct (rd_hash _ k1) as [[v2 k2]| |] eqn:E2; cbn [rbind]; try done.
    destruct (rd_slice_u16 _ k2) as [[v3 k3]| |] eqn:E3; cbn [rbind]; try done.
    intros [= <-]. apply rd_u16_typed in E1. apply rd_hash_typed in E2. apply rd_slice_u16_typed in E3 as [? ?]. done.
  - destruct x as [[|[]|]|[[]|[]|]|]; try done.
    + destruct (rd_u16 _ 1) as [[v1 k1]| |] eqn:E1; cbn [rbind]; try done.
      destruct (rd_u16 _ k1) as [[v2 k2]| |] eqn:E2; cbn [rbind]; try done.
      destruct (rd_entries _ _ k2) as [[v3 k3]| |] eqn:E3; cbn [rbind]; try done.
      intros [= <-]. apply rd_u16_typed in E1, E2. apply rd_entries_typed in E3 as (? & ? & ?).
      split; [done|]. split; [|done]. split; [unfold u16 in *; lia|done].
    + destruct (rd_u32 _ 1) as [[v1 k1]| |] eqn:E1; cbn [rbind]; try done.
      intros [= <-]. apply rd_u32_typed in E1. done.
    + destruct (rd_hash _ 1) as [[v1 k1]| |] eqn:E1; cbn [rbind]; try done.
      destruct (rd_u16 _ k1) as [[v2 k2]| |] eqn:E2; cbn [rbind]; try done.
      destruct (rd_u16 _ k2) as [[v3 k3]| |] eqn:E3; cbn [rbind]; try done.
      intros [= <-]. apply rd_u16_typed in E2, E3. apply rd_hash_typed in E1. done.
    + destruct (rd_u16 _ 1) as [[v1 k1]| |] eqn:E1; cbn [rbind]; try done.
      destruct (rd_hash _ k1) as [[v2 k2]| |] eqn:E2; cbn [rbind]; try done.
      intros [= <-]. apply rd_u16_typed in E1. apply rd_hash_typed in E2. done.
    + destruct (rd_u16 _ 1) as [[v1 k1]| |] eqn:E1; cbn [rbind]; try done.
      destruct (rd_bytes 4 _ k1) as [[v2 k2]| |] eqn:E2; cbn [rbind]; try done.
      destruct (rd_u16 _ k2) as [[v3 k3]| |] eqn:E3; cbn [rbind]; try done.
      destruct (rd_slice_u16 _ k3) as [[v4 k4]| |] eqn:E4; cbn [rbind]; try done.
      intros [= <-]. apply rd_u16_typed in E1, E3. apply rd_slice_u16_typed in E4 as [? ?].
      split; [|done]. split; [|done].
      unfold rd_bytes in E2. destruct (rd_slice_cases (ty :: rest) k1 4) as [[Hl E]|[_ [p E]]];
        rewrite E in E2; cbn [rbind] in E2; [|done]. injection E2 as <- _.
      rewrite take_length, drop_length. lia.
Qed.
