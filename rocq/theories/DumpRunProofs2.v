(** The default capture filter, and a whole run with it. *)
From Verif Require Import Base TlvModel TlvProofs PingModel DumpModel DumpSpec DumpProofs DumpProofs2 DumpRunModel DumpRunSpec DumpRunProofs.
From Coq Require Import String List Lia.
Import ListNotations.
Local Open Scope nat_scope.
Local Open Scope list_scope.

(** * Reading *)
Lemma ld8_app a b k n : length a = n -> ld8 (a ++ b) (n + k) = ld8 b k.
Proof. intros <-. unfold ld8. rewrite nth_error_app2 by lia. f_equal. lia. Qed.
Lemma ld16_app a b k n : length a = n -> ld16 (a ++ b) (n + k) = ld16 b k.
Proof.
  intros <-. unfold ld16. rewrite !nth_error_app2 by lia.
  replace (length a + k - length a) with k by lia. replace (length a + k + 1 - length a) with (k + 1) by lia. reflexivity.
Qed.
Lemma be2 v : (v < 65536)%N -> be 2 v = [v / 256; v mod 256]%N.
Proof.
  intros H. cbn [be app]. rewrite (N.mod_small (v / 256)); [reflexivity|]. apply N.div_lt_upper_bound; lia.
Qed.
Lemma ld16_be v r : (v < 65536)%N -> ld16 (be 2 v ++ r) 0 = Some v.
Proof. intros H. rewrite be2 by exact H. cbn. f_equal. rewrite (N.div_mod' v 256) at 3. lia. Qed.
Lemma be_len v : length (be 2 v) = 2.
Proof. reflexivity. Qed.

Lemma or_some a b : or_ (Some a) (Some b) = Some (a || b).
Proof. destruct a; reflexivity. Qed.
Lemma and_some a b : and_ (Some a) (Some b) = Some (a && b).
Proof. destruct a; reflexivity. Qed.
Lemma and_false b : and_ (Some false) b = Some false.
Proof. reflexivity. Qed.

(** * Content *)
Section Content.
Variable cap : list N.
Variable l : link_type.
Variable type : N.
Variable b : list N.
Hypothesis notPpp : l <> DltPpp.
Hypothesis at_type : ld16 cap (off_type l) = Some type.
Hypothesis at_payload8 : forall k, ld8 cap (off_payload l + k) = ld8 b k.
Hypothesis at_payload16 : forall k, ld16 cap (off_payload l + k) = ld16 b k.

Lemma ether_proto_is t : ether_proto cap l t = Some (type =? t)%N.
Proof. unfold ether_proto. rewrite at_type. destruct l; cbn; try reflexivity. congruence. Qed.

Definition ports (sport dport p : N) : bool := (sport =? p)%N || (dport =? p)%N.

Lemma default_other : type <> 2048%N -> type <> 34525%N -> bpf_default cap l = (type =? 34340)%N.
Proof.
  intros H4 H6. unfold bpf_default, proto_port, ip4_port, ip6_port. rewrite !ether_proto_is.
  apply N.eqb_neq in H4, H6. rewrite H4, H6, !and_false, !or_some. cbn. rewrite orb_false_r. reflexivity.
Qed.

Lemma default_ip4 proto frag hl sport dport : type = 2048%N ->
  ld8 b 0 = Some hl -> ld8 b 9 = Some proto -> ld16 b 6 = Some frag ->
  ld16 b (4 * N.to_nat (hl mod 16)) = Some sport -> ld16 b (4 * N.to_nat (hl mod 16) + 2) = Some dport ->
  bpf_default cap l =
  (frag mod 8192 =? 0)%N && (((proto =? 6)%N || (proto =? 17)%N) && ports sport dport 6363 || (proto =? 17)%N && ports sport dport 56363).
Proof.
  intros T H0 H9 H6 Hs Hd.
  assert (Q : forall pr po, ip4_port cap l pr po = Some ((proto =? pr)%N && ((frag mod 8192 =? 0)%N && ports sport dport po))).
  { intros pr po. unfold ip4_port. rewrite !ether_proto_is, T.
    rewrite at_payload8, H9, at_payload16, H6.
    replace (off_payload l) with (off_payload l + 0) at 1 by lia. rewrite at_payload8, H0.
    rewrite <- Nat.add_assoc, at_payload16, Hs, at_payload16, Hd. unfold is; cbn [option_map].
    rewrite or_some, !and_some. rewrite N.eqb_refl. reflexivity. }
  unfold bpf_default, proto_port. rewrite !Q. unfold ip6_port. rewrite !ether_proto_is, T, !and_false, !or_some.
  cbn [N.eqb orb]. destruct (proto =? 6)%N, (proto =? 17)%N, (frag mod 8192 =? 0)%N, (ports sport dport 6363), (ports sport dport 56363); reflexivity.
Qed.

Lemma default_ip6 proto sport dport : type = 34525%N ->
  ld8 b 6 = Some proto -> ld16 b 40 = Some sport -> ld16 b 42 = Some dport ->
  bpf_default cap l =
  (((proto =? 6)%N || (proto =? 17)%N) && ports sport dport 6363 || (proto =? 17)%N && ports sport dport 56363).
Proof.
  intros T H6 Hs Hd.
  assert (Q : forall pr po, ip6_port cap l pr po = Some ((proto =? pr)%N && ports sport dport po)).
  { intros pr po. unfold ip6_port. rewrite !ether_proto_is, T.
    rewrite at_payload8, H6, !at_payload16, Hs, Hd. unfold is; cbn [option_map].
    rewrite or_some, !and_some. rewrite N.eqb_refl. reflexivity. }
  unfold bpf_default, proto_port. rewrite !Q. unfold ip4_port. rewrite !ether_proto_is, T, !and_false, !or_some.
  cbn [N.eqb orb]. destruct (proto =? 6)%N, (proto =? 17)%N, (ports sport dport 6363), (ports sport dport 56363); reflexivity.
Qed.

Lemma ndn_port_bool proto sport dport :
  (((proto =? 6)%N || (proto =? 17)%N) && ports sport dport 6363 || (proto =? 17)%N && ports sport dport 56363) = true <->
  ndn_port proto sport dport.
Proof.
  unfold ndn_port, ports. rewrite orb_true_iff, !andb_true_iff, !orb_true_iff, !N.eqb_eq. tauto.
Qed.

Lemma first_fragment_bool i0 i1 f0 f1 t : (f0 < 256)%N -> (f1 < 256)%N ->
  ((f0 * 256 + f1) mod 8192 =? 0)%N = true <-> first_fragment [i0; i1; f0; f1; t].
Proof.
  intros B0 B1. rewrite N.eqb_eq. unfold first_fragment. split.
  - intros H. apply N.mod_divide in H; [|lia]. destruct H as [q H]. exists i0, i1, q, t.
    assert (f1 = 0)%N.
    { assert (f1 = 256 * (32 * q - f0))%N by lia. nia. }
    subst f1. repeat f_equal. lia.
  - intros (a & c & q & d & H). injection H as _ _ -> -> _. apply N.mod_divide; [lia|]. exists q. lia.
Qed.

End Content.

Lemma content_default cap l type b ndn : l <> DltPpp -> ld16 cap (off_type l) = Some type ->
  (forall k, ld8 cap (off_payload l + k) = ld8 b k) -> (forall k, ld16 cap (off_payload l + k) = ld16 b k) ->
  content type b ndn -> bpf_default cap l = true <-> ndn.
Proof.
  intros notPpp at_type at8 at16 C. destruct C as [x y proto z src dst options sport dport rest pad Hy Hz Hs Hd Ho Hl Bs Bd
    |x y next hops src dst sport dport rest pad Hy Hs Hd Bs Bd|t b' Bt N4 N6].
  - destruct Hy as [Hy By]. do 6 (destruct y as [|? y]; try discriminate Hy).
    do 3 (destruct z as [|? z]; try discriminate Hz). do 5 (destruct src as [|? src]; try discriminate Hs).
    do 5 (destruct dst as [|? dst]; try discriminate Hd).
    set (m := length options / 4) in *.
    assert (Em : length options = 4 * m).
    { unfold m. rewrite (Nat.div_mod (length options) 4) at 1 by lia. rewrite Ho. lia. }
    assert (Hm : ((64 + N.of_nat (5 + m)) mod 16 = N.of_nat (5 + m))%N).
    { replace (64 + N.of_nat (5 + m))%N with (N.of_nat (5 + m) + 4 * 16)%N by lia.
      rewrite N.mod_add by lia. apply N.mod_small. lia. }
    match goal with _ : forall k, ld8 cap (off_payload l + k) = ld8 (ipv4 ?a ?b ?c ?d ?e ?f ?g ?i ++ pad) k |- _ =>
      set (bb := ipv4 a b c d e f g i ++ pad) in * end.
    assert (Eb : exists h, bb = h ++ port sport ++ port dport ++ rest ++ pad /\ length h = 20 + 4 * m).
    { eexists (_ :: _ :: _ :: _ :: _ :: _ :: _ :: _ :: _ :: _ :: _ :: _ :: _ :: _ :: _ :: _ :: _ :: _ :: _ :: _ :: options).
      split; [|cbn [length]; lia].
      unfold bb, ipv4. cbn [be app]. rewrite <- !app_assoc. reflexivity. }
    destruct Eb as (h & Eb & Lh).
    assert (Ht : 4 * N.to_nat ((64 + N.of_nat (5 + m)) mod 16) = 20 + 4 * m) by (rewrite Hm; lia).
    rewrite (default_ip4 cap l ETH_IP4 bb notPpp at_type at8 at16 proto (n1 * 256 + n2)%N (64 + N.of_nat (5 + m))%N sport dport eq_refl eq_refl eq_refl eq_refl).
    + rewrite andb_true_iff, first_fragment_bool, ndn_port_bool; [reflexivity| |];
        repeat match goal with H : Forall is_byte (_ :: _) |- _ => inversion H; clear H; subst end; assumption.
    + rewrite Ht, Eb, <- (Nat.add_0_r (20 + 4 * m)), (ld16_app h _ 0 _ Lh). apply ld16_be, Bs.
    + rewrite Ht, Eb, (ld16_app h _ 2 _ Lh). change 2 with (2 + 0) at 1. rewrite (ld16_app (port sport) _ 0 2 eq_refl). apply ld16_be, Bd.
  - do 4 (destruct y as [|? y]; try discriminate Hy).
    do 17 (destruct src as [|? src]; try discriminate Hs). do 17 (destruct dst as [|? dst]; try discriminate Hd).
    match goal with _ : forall k, ld8 cap (off_payload l + k) = ld8 (ipv6 ?a ?b ?c ?d ?e ?f ?g ++ pad) k |- _ =>
      set (bb := ipv6 a b c d e f g ++ pad) in * end.
    assert (Eb : exists h, bb = h ++ port sport ++ port dport ++ rest ++ pad /\ length h = 40).
    { unfold bb, ipv6. eexists (_ :: _ :: _ :: _ :: _ :: _ :: _ :: _ :: _ :: _ :: _ :: _ :: _ :: _ :: _ :: _ :: _ :: _ :: _ :: _ ::
        _ :: _ :: _ :: _ :: _ :: _ :: _ :: _ :: _ :: _ :: _ :: _ :: _ :: _ :: _ :: _ :: _ :: _ :: _ :: _ :: []).
      split; [|reflexivity]. cbn [be app]. rewrite <- !app_assoc. reflexivity. }
    destruct Eb as (h & Eb & Lh).
    rewrite (default_ip6 cap l ETH_IP6 bb notPpp at_type at8 at16 next sport dport eq_refl eq_refl).
    + apply ndn_port_bool.
    + rewrite Eb. change 40 with (40 + 0). rewrite (ld16_app h _ 0 _ Lh). apply ld16_be, Bs.
    + rewrite Eb. change 42 with (40 + 2). rewrite (ld16_app h _ 2 _ Lh). change 2 with (2 + 0) at 1.
      rewrite (ld16_app (port sport) _ 0 2 eq_refl). apply ld16_be, Bd.
  - rewrite (default_other cap l t b' notPpp at_type at8 at16) by assumption. apply N.eqb_eq.
Qed.

Lemma frame_default l b ndn : frame l b ndn -> bpf_default b l = true <-> ndn.
Proof.
  intros F. destruct F as [dst src type b ndn Ld Ls C|header type b ndn Lh C].
  - assert (T : (type < 65536)%N) by (destruct C; try reflexivity; assumption).
    unfold ethernet. assert (E : dst ++ src ++ be 2 type ++ b = (dst ++ src) ++ be 2 type ++ b) by (rewrite <- app_assoc; reflexivity).
    assert (E2 : dst ++ src ++ be 2 type ++ b = (dst ++ src ++ be 2 type) ++ b) by (rewrite <- !app_assoc; reflexivity).
    apply (content_default _ DltEther type b); [discriminate| | | |exact C].
    + rewrite E. cbn [off_type]. change 12 with (12 + 0). rewrite ld16_app by (rewrite app_length; lia). apply ld16_be, T.
    + intros k. rewrite E2. apply ld8_app. rewrite !app_length, be_len. cbn. lia.
    + intros k. rewrite E2. apply ld16_app. rewrite !app_length, be_len. cbn. lia.
  - assert (T : (type < 65536)%N) by (destruct C; try reflexivity; assumption).
    unfold linux_sll. assert (E2 : header ++ be 2 type ++ b = (header ++ be 2 type) ++ b) by (rewrite <- !app_assoc; reflexivity).
    apply (content_default _ DltSll type b); [discriminate| | | |exact C].
    + cbn [off_type]. change 14 with (14 + 0). rewrite ld16_app by exact Lh. apply ld16_be, T.
    + intros k. rewrite E2. apply ld8_app. rewrite !app_length, be_len. cbn. lia.
    + intros k. rewrite E2. apply ld16_app. rewrite !app_length, be_len. cbn. lia.
Qed.

(** a PPP frame with an NDN packet does not pass *)
Lemma ppp_field cap v : ld16 cap 2 = Some v -> v <> 34340%N -> v <> 33%N -> v <> 87%N -> bpf_default cap DltPpp = false.
Proof.
  intros L H1 H2 H3. apply N.eqb_neq in H1, H2, H3.
  unfold bpf_default, proto_port, ip4_port, ip6_port, ether_proto. cbn [off_type]. rewrite !L. unfold is. cbn [option_map].
  change (2048 =? 2048)%N with true. change (34340 =? 2048)%N with false.
  change (34340 =? 34525)%N with false. change (34525 =? 2048)%N with false. change (34525 =? 34525)%N with true. cbv iota.
  rewrite H1, H2, H3. reflexivity.
Qed.
Lemma ppp_default b : ppp_ndn b -> bpf_default b DltPpp = false.
Proof.
  intros [c x y p Hx|x y p H1 H2 H3].
  - destruct c; eapply ppp_field; try reflexivity; lia.
  - eapply ppp_field; [reflexivity|exact H1|exact H2|exact H3].
Qed.

(** * Whole runs *)
Section Whole.
Variable E : env.
Variable P : pcap.
Variables usage version : list text.
Variable regex : text -> text + (text -> bool).
Notation prog := (dump_program E P usage version regex).

Lemma shown_prints l ts (f : packet -> bool) ps lss : (forall p, f p = bpf_default (p_cap p) l) ->
  Forall2 (shown E l ts) ps lss -> prints E (DumpOpts l None ts) (fun p => f p = true) ps (concat lss).
Proof.
  intros Hf. induction 1 as [|p ls ps lss S F IH]; [constructor|]. cbn [concat].
  destruct S as [b n fields ndn sec usec C Fr N|b ndn len sec usec Fr N].
  - apply Pr_line; [|exact (decapsulation E l ts b n fields sec usec C)|exact IH].
    rewrite Hf. apply (frame_default _ _ _ Fr), N.
  - apply Pr_skip; [|exact IH]. rewrite Hf. intros Q. apply N. apply (frame_default _ _ _ Fr), Q.
Qed.

Theorem default_run a action c l lss :
  accepted regex a None -> a_pcap a = [] -> source P a action (inr c) -> d_link (c_datalink c) = Some l ->
  compiles_default c l -> Forall2 (shown E l (negb (a_no_timestamp a))) (c_packets c) lss -> c_end c = EndOfFile ->
  exists err, prog (inr a) = (Output (concat lss) err, Ended 0).
Proof.
  intros A W S L (f & C & Hf) F D. eexists. apply behaves_prog.
  eapply Be_done; [exact A|exact S|exact L|rewrite W; constructor|eapply Us_some; [discriminate|exact C]| |exact D].
  apply shown_prints; assumption.
Qed.

Theorem ppp_run a f action c :
  accepted regex a f -> a_pcap a = [] -> source P a action (inr c) -> d_link (c_datalink c) = Some DltPpp ->
  compiles_default c DltPpp -> Forall (fun p => ppp_ndn (p_cap p)) (c_packets c) -> c_end c = EndOfFile ->
  exists err, prog (inr a) = (Output [] err, Ended 0).
Proof.
  intros A W S L (g & C & Hg) F D. eexists. apply behaves_prog.
  eapply Be_done; [exact A|exact S|exact L|rewrite W; constructor|eapply Us_some; [discriminate|exact C]| |exact D].
  induction F as [|p ps H F IH]; [constructor|]. apply Pr_skip; [|exact IH]. rewrite Hg, ppp_default by exact H. discriminate.
Qed.

Theorem unfiltered_run a action c l lines :
  accepted regex a None -> a_pcap a = [[]] -> source P a action (inr c) -> d_link (c_datalink c) = Some l ->
  Forall2 (fun p line => exists n fields, captured E l (p_cap p) n fields /\ p_len p = length (p_cap p) /\
             line = expected_line (negb (a_no_timestamp a)) (p_sec p) (p_usec p) fields) (c_packets c) lines ->
  c_end c = EndOfFile ->
  exists err, prog (inr a) = (Output lines err, Ended 0).
Proof.
  intros A W S L F D. eexists. apply behaves_prog.
  eapply Be_done; [exact A|exact S|exact L|rewrite W; apply Ex_words; constructor|apply Us_all| |exact D].
  induction F as [|p line ps ls (n & fields & C & Hl & ->) F IH]; [constructor|].
  apply Pr_line; [exact I| |exact IH]. rewrite Hl. exact (decapsulation E l _ _ n fields _ _ C).
Qed.

(** no undefined behaviour if every packet has been captured completely *)

Lemma loop_fine o f ps : Forall (fun p => p_len p = length (p_cap p)) ps -> exists ls, pcap_loop E o f ps = Fine ls.
Proof.
  induction 1 as [|p ps H F (ls & IH)]; [eexists; reflexivity|]. cbn [pcap_loop]. destruct (f p); [|exists ls; exact IH].
  rewrite H. destruct (printPacket E o (p_cap p) (length (p_cap p)) (p_sec p) (p_usec p)) as [x| |] eqn:Q.
  - cbn [bind]. rewrite IH. eexists. reflexivity.
  - exfalso. exact (packet_in_bounds _ _ _ _ _ Q).
  - exfalso. exact (printPacket_nw _ _ _ _ _ _ Q).
Qed.

Theorem no_crash cmd :
  (forall i b c, pc_live P i b = inr c -> complete c) -> (forall f c, pc_file P f = inr c -> complete c) ->
  snd (prog cmd) <> Crash.
Proof.
  intros Hl Hf.
  assert (Rl : forall o f c, complete c -> snd (run_loop E o f c) <> Undefined).
  { intros o f c C. unfold run_loop. destruct (loop_fine o f _ C) as (ls & ->).
    destruct (c_end c); discriminate. }
  assert (Rc : forall s action c, complete c -> snd (run_capture E s action c) <> Undefined).
  { intros s action c C. unfold run_capture. destruct (d_link (c_datalink c)) as [l|]; [|discriminate].
    unfold run_filter. destruct (is_empty (s_pcap s)).
    - specialize (Rl (DumpOpts l (s_filter s) (s_timestamp s)) (fun _ => true) c C).
      destruct (run_loop E _ _ c) as [? e]. apply Rl.
    - destruct (c_compile c (s_pcap s)) as [| |f]; try discriminate.
      specialize (Rl (DumpOpts l (s_filter s) (s_timestamp s)) f c C).
      destruct (run_loop E _ _ c) as [? e]. apply Rl. }
  assert (Ro : forall s i, snd (run_open E P s i) <> Undefined).
  { intros s i. unfold run_open. destruct (negb (is_empty i)).
    - destruct (pc_live P i (s_promisc s)) as [|c] eqn:Q; [discriminate|]. apply Rc, (Hl _ _ _ Q).
    - destruct (pc_file P (s_file s)) as [|c] eqn:Q; [discriminate|]. apply Rc, (Hf _ _ Q). }
  assert (Rm : forall s, snd (main_run E P s) <> Crash).
  { intros s. assert (Q : snd (run E P s) <> Undefined).
    { unfold run. destruct (is_empty (s_file s) && is_empty (s_interface s)); [|apply Ro].
      destruct (pc_devices P) as [|[|d ds]]; [discriminate|discriminate|apply Ro]. }
    unfold main_run. destruct (run E P s) as [out []]; try discriminate. exfalso; apply Q; reflexivity. }
  destruct cmd as [m|a]; [discriminate|]. cbn [dump_program].
  destruct (a_help a); [discriminate|]. destruct (a_version a); [discriminate|].
  destruct (a_interface a), (a_read a); try discriminate; (destruct (a_filter a) as [r|]; [destruct (regex r); [discriminate|]|]; apply Rm).
Qed.
End Whole.
