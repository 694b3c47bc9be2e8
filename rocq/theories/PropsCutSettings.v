(** * Property C118: a settings response longer than what is received at once *)
From Coq Require Import String ZArith List Bool Lia Permutation.
From Coq Require Import Strings.Byte.
From Verif Require Import Py PyFacts Utf8Facts Stream StreamFacts StreamFacts2 Version Frame Messages Rest Routes Settings Host
  Spec SpecFacts SettingsFacts FrameFacts Wire WireFacts WireFacts2 WireFacts3 WireFacts4 WireFacts5 HostSpec HostFacts
  PropsMessages PropsHost PropsMemory PropsWire PropsHistory PropsSession PropsSeen PropsCut.
Import ListNotations.
Open Scope list_scope.
Open Scope Z_scope.

(** ** Specification *)
(** one setting in the wire format, its value nested less deeply than [n] *)
Definition entry (strict : bool) (n : nat) (kv : pystr * pyval) : bytes -> Prop :=
  parts [w_string strict (fst kv); fun b => w_generic strict (snd kv) b /\ nested (snd kv) n].
(** the settings known are what [l] says, the last entry of a name counting, and otherwise as before *)
Definition learned {U} (h h' : host U) (l : list (pystr * pyval)) : Prop :=
  forall d, dict_from l d -> forall key, dict_get streqb key (hs_settings h') =
    match dict_get streqb key d with Some v => Some v | None => dict_get streqb key (hs_settings h) end.

(** ** Proofs *)
Lemma entry_reads strict n f : (n < f)%nat -> reads (read_pair (read_generic_value f)) (entry strict n) (fun _ => True).
Proof.
  intros Hf. apply reads_upto_eq. intros kv c t _ H.
  destruct (pair_reads_upto strict _ eq (read_generic_value f) (fun v b => w_generic strict v b /\ nested v n)) with (a := kv) (bs := c) (s := t)
    as (kv' & E & E1 & E2); [|exact I|exact H|].
  - intros v c' t' _ [Wv Nv]. exists v. split; [|reflexivity]. exact (generic_reads strict f n Hf v c' t' Nv Wv).
  - exists kv'. split; [exact E|]. destruct kv, kv'. cbn [fst snd] in *. congruence.
Qed.
Lemma loop_entries strict n f l : (n < f)%nat -> forall b s d m, parts (map (entry strict n) l) b ->
  read_settings_loop f (length l + m) d (b ++ s) = read_settings_loop f m (merge d l) s.
Proof.
  intros Hf. induction l as [|kv l IH]; intros b s d m W.
  - inversion W; subst. reflexivity.
  - cbn [map] in W. apply parts_cons_inv in W as (a & b' & -> & V & W). cbn [length plus read_settings_loop].
    change (key <~ read_string ;; v <~ read_generic_value f ;; rret (key, v)) with (read_pair (read_generic_value f)).
    rewrite <- app_assoc, (entry_reads strict n f Hf kv a (b' ++ s) I V). destruct kv as [k v]. rewrite (IH _ _ _ _ W). reflexivity.
Qed.
Lemma loop_nothing f m : forall d, (0 < f)%nat -> (0 < m)%nat -> exists r, read_settings_loop f m d [] = (Ok r, merge d [([], VStr [])]).
Proof.
  destruct f as [|f]; [lia|]. induction m as [|m IH]; intros d Hf Hm; [lia|].
  change (read_settings_loop (S f) (S m) d []) with (read_settings_loop (S f) m (dict_set streqb [] (VStr []) d) []).
  destruct m as [|m].
  - exists []. reflexivity.
  - destruct (IH (dict_set streqb [] (VStr []) d)) as (r & E); [lia|lia|]. exists r. rewrite E. unfold merge. cbn [fold_left fst snd].
    f_equal. clear. induction d as [|[k v] d IH]; [reflexivity|]. cbn [dict_set]. destruct (streqb [] k) eqn:E; cbn [dict_set]; rewrite ?E; [reflexivity|].
    f_equal. exact IH.
Qed.
(** the envelope of a response, and any payload *)
Lemma response_envelope {U} ev (ext : extension U) m raw : set_order_ok (e_so ev) -> Forall length_prefix_ok (ctx_strings (m_ctx m)) ->
  w_frame true m raw -> exists e, raw = e ++ m_payload m /\
    forall t uuid h, on_input ev ext uuid (e ++ t) h = handle_response ev (m_id m) t (set_next h (hs_next h + 2)).
Proof.
  intros So P F. destruct (C73_wire_frames_partial (e_so ev) m raw So P) as (_ & _ & R).
  destruct (R false [x00] F) as (hd & t & n & o0 & n' & o & Rh & Eq & Ee & Ek & En & Ro).
  destruct (local_read_header _ _ _ Rh) as (ph & Eph & Lh).
  destruct (local_read_outbound _ _ _ _ _ _ _ Ro) as (po & -> & Lo).
  assert (N : m_payload m ++ [x00] <> []) by (destruct (m_payload m); discriminate). specialize (Lo N).
  assert (N' : po ++ m_payload m ++ [x00] <> []) by (destruct po; [exact N|discriminate]). specialize (Lh N').
  exists (ph ++ po). split; [rewrite !app_assoc in Eph; apply app_inv_tail in Eph; exact Eph|].
  intros t uuid h. refine (on_response ev ext _ false (m_id m) t _ uuid h).
  exists hd, (po ++ t), n, o0, n', o. rewrite <- app_assoc. auto 10.
Qed.
Lemma parts_app_inv l l' : forall bs, parts (l ++ l') bs -> exists a b, bs = a ++ b /\ parts l a /\ parts l' b.
Proof.
  induction l as [|P l IH]; intros bs H.
  - exists [], bs. split; [reflexivity|]. split; [constructor|exact H].
  - cbn [app] in H. apply parts_cons_inv in H as (x & y & -> & Px & Py). destruct (IH _ Py) as (a & b & -> & A & B).
    exists (x ++ a), b. split; [apply app_assoc|]. split; [constructor; assumption|exact B].
Qed.
Lemma parts_one_inv P bs : parts [P] bs -> P bs.
Proof. intros H. apply parts_cons_inv in H as (x & y & -> & Px & Py). inversion Py; subst. rewrite app_nil_r. exact Px. Qed.
Lemma merge_app d l l' : merge d (l ++ l') = merge (merge d l) l'.
Proof. unfold merge. apply fold_left_app. Qed.
Lemma merged {U} (h h' : host U) l : hs_settings h' = merge (hs_settings h) l -> learned h h' l.
Proof.
  intros E d Df key. rewrite E, merge_lookup. apply dict_from_pairs in Df. unfold dict_of_pairs in Df. fold (merge [] l) in Df. rewrite Df. reflexivity.
Qed.
(** two payloads that are both read as settings: the host does the same, except for what it knows *)
Lemma both_read {U} ev m t1 t2 l1 l2 r1 r2 (h : host U) : waits_for h (m_id m) EnvRH ->
  read_settings (e_fuel ev) (hs_settings h) t1 = (Ok r1, merge (hs_settings h) l1) ->
  read_settings (e_fuel ev) (hs_settings h) t2 = (Ok r2, merge (hs_settings h) l2) ->
  exists r h1 h2, handle_response ev (m_id m) t1 (set_next h (hs_next h + 2)) = (r, h1) /\
    handle_response ev (m_id m) t2 (set_next h (hs_next h + 2)) = (r, h2) /\ learned h h1 l1 /\ learned h h2 l2 /\
    h2 = set_settings h1 (hs_settings h2).
Proof.
  intros Wf R1 R2. unfold waits_for in Wf. unfold handle_response. cbn [hs_pending set_next]. rewrite Wf. cbv zeta. unfold handle_env.
  cbn [hs_settings set_pending set_next]. rewrite R1, R2. cbv zeta. cbn [hs_init set_settings set_pending set_next].
  destruct (hs_init h) as [o|].
  - unfold send. destruct (write_outbound o) as [out|e].
    + rewrite !hbind_hlift. eexists _, _, _. split; [reflexivity|]. split; [reflexivity|]. split; [apply merged; reflexivity|]. split; [apply merged; reflexivity|reflexivity].
    + unfold hbind, hlift. eexists _, _, _. split; [reflexivity|]. split; [reflexivity|]. split; [apply merged; reflexivity|]. split; [apply merged; reflexivity|reflexivity].
  - eexists _, _, _. split; [reflexivity|]. split; [reflexivity|]. split; [apply merged; reflexivity|]. split; [apply merged; reflexivity|reflexivity].
Qed.
Lemma read_cut strict n f l l1 l2 c t d : (n < f)%nat -> l = l1 ++ l2 -> w_vint strict (zlen l) c -> parts (map (entry strict n) l1) t ->
  forall s, read_settings f d (c ++ t ++ s) = read_settings_loop f (length l2) (merge d l1) s.
Proof.
  intros Hf -> V W s. unfold read_settings. rewrite (v_int_reads strict _ c _ I V). unfold zlen. rewrite Nat2Z.id, app_length.
  apply (loop_entries strict n f l1 Hf _ _ _ _ W).
Qed.

(** C118, as one would expect it: however what OpenSearch sends is divided into what is received
    at once, a setting the host knows was in a message sent, with that value *)
Definition sent_whole (m : message) (raw : bytes) : Prop :=
  exists resp, m_id m <> 0 /\ Forall length_prefix_ok (ctx_strings (m_ctx m)) /\ w_frame resp m raw.
Definition C118_statement : Prop := forall U ev (ext : extension U) u ms raws l, set_order_ok (e_so ev) ->
  Forall2 sent_whole ms raws -> List.concat (map snd l) = List.concat raws -> Forall (fun c => 0 < zlen (snd c) <= 10240) l ->
  forall key v, dict_get streqb key (hs_settings (feed ev ext (initial_host u) l)) = Some v ->
  exists m strict d, In m ms /\ w_settings strict d (m_payload m) /\ dict_get streqb key d = Some v.

(** It is false of every response with settings: cut before one of them, the host goes on as if it
    had received all of it (and sends the same reply), knowing those before, and one named ""; *)
Theorem C118_cut_refuted : forall U ev (ext : extension U) strict n m raw l, set_order_ok (e_so ev) -> (n < e_fuel ev)%nat ->
  Forall length_prefix_ok (ctx_strings (m_ctx m)) -> w_frame true m raw -> w_list strict (entry strict n) l (m_payload m) ->
  forall l1 l2, l = l1 ++ l2 -> l2 <> [] -> exists a b, raw = a ++ b /\ parts (map (entry strict n) l2) b /\
    forall uuid h, waits_for h (m_id m) EnvRH ->
      exists r h1 h2, on_input ev ext uuid raw h = (r, h1) /\ on_input ev ext uuid a h = (r, h2) /\ h2 = set_settings h1 (hs_settings h2) /\
        learned h h1 l /\ learned h h2 (l1 ++ [(py "", VStr (py ""))]).
Proof.
  intros U ev ext strict n m raw l So Hf P F W l1 l2 El Hl. destruct (response_envelope ev ext m raw So P F) as (e & Er & R).
  unfold w_list in W. rewrite El in W at 2. rewrite map_app in W. apply parts_cons_inv in W as (c & b & Ep & V & W). rewrite Er, Ep. clear Er Ep.
  apply parts_app_inv in W as (b1 & b2 & -> & W1 & W2).
  exists (e ++ c ++ b1), b2. split; [rewrite <- !app_assoc; reflexivity|]. split; [exact W2|]. intros uuid h Wf. rewrite !R.
  assert (R1 : read_settings (e_fuel ev) (hs_settings h) (c ++ b1 ++ b2) = (Ok [], merge (hs_settings h) l)).
  { rewrite (read_cut strict n _ l l1 l2 c b1 _ Hf El V W1). pose proof (loop_entries strict n _ l2 Hf b2 [] (merge (hs_settings h) l1) 0%nat W2) as X.
    rewrite app_nil_r, Nat.add_0_r in X. rewrite X. cbn [read_settings_loop]. rewrite El, merge_app. reflexivity. }
  destruct (loop_nothing (e_fuel ev) (length l2) (merge (hs_settings h) l1)) as (r2 & X); [lia|destruct l2; [contradiction|cbn; lia]|].
  assert (R2 : read_settings (e_fuel ev) (hs_settings h) (c ++ b1) = (Ok r2, merge (hs_settings h) (l1 ++ [(py "", VStr (py ""))]))).
  { rewrite <- (app_nil_r (c ++ b1)), <- app_assoc. rewrite (read_cut strict n _ l l1 l2 c b1 _ Hf El V W1), X, merge_app. reflexivity. }
  destruct (both_read ev m _ _ _ _ _ _ h Wf R1 R2) as (r & h1 & h2 & E1 & E2 & L1 & L2 & E3). exists r, h1, h2. auto.
Qed.
Print Assumptions C118_cut_refuted.
(** cut in the text of a setting, it knows that setting with the text up to there. *)
Theorem C118_cut_text_refuted : forall U ev (ext : extension U) strict n m raw l, set_order_ok (e_so ev) -> (n < e_fuel ev)%nat ->
  Forall length_prefix_ok (ctx_strings (m_ctx m)) -> w_frame true m raw -> w_list strict (entry strict n) l (m_payload m) ->
  forall l1 k x l2, l = l1 ++ (k, VStr x) :: l2 -> exists a e b, raw = a ++ e ++ b /\ is_utf8 x e /\ parts (map (entry strict n) l2) b /\
    forall x1 e1 e2 uuid h, e = e1 ++ e2 -> is_utf8 x1 e1 -> e1 <> [] -> e2 <> [] -> waits_for h (m_id m) EnvRH ->
      exists r h1 h2, on_input ev ext uuid raw h = (r, h1) /\ on_input ev ext uuid (a ++ e1) h = (r, h2) /\ h2 = set_settings h1 (hs_settings h2) /\
        learned h h1 l /\ learned h h2 (l1 ++ (k, VStr x1) :: match l2 with [] => [] | _ => [(py "", VStr (py ""))] end).
Proof.
  intros U ev ext strict n m raw l So Hf P F W l1 k x l2 El. destruct (response_envelope ev ext m raw So P F) as (g & Er & R).
  unfold w_list in W. rewrite El in W at 2. rewrite map_app in W. apply parts_cons_inv in W as (c & b & Ep & V & W). rewrite Er, Ep. clear Er Ep.
  apply parts_app_inv in W as (b1 & b2 & -> & W1 & W2). pose proof W2 as W2'. cbn [map] in W2. apply parts_cons_inv in W2 as (b3 & b4 & -> & W3 & W4).
  unfold entry in W3. cbn [fst snd] in W3. apply parts_cons_inv in W3 as (bk & bv & -> & Wk & Wv). apply parts_one_inv in Wv as [Wv Nv].
  inversion Wv as [| s bs Ws E1 E2 | | | | | | |]; subst s bv. destruct Ws as (e & Ue & Le & Pe).
  apply parts_cons_inv in Pe as (an & be & -> & Vn & Pe). apply parts_one_inv in Pe. unfold exactly in Pe. subst be.
  exists (g ++ c ++ b1 ++ bk ++ x00 :: an), e, b4. split; [rewrite <- !app_assoc; cbn [app]; rewrite <- !app_assoc; reflexivity|]. split; [exact Ue|]. split; [exact W4|].
  intros x1 e1 e2 uuid h Ee U1 N1 N2 Wf. rewrite R.
  replace ((g ++ c ++ b1 ++ bk ++ x00 :: an) ++ e1) with (g ++ c ++ b1 ++ bk ++ x00 :: an ++ e1) by (rewrite <- !app_assoc; reflexivity). rewrite R.
  assert (R1 : read_settings (e_fuel ev) (hs_settings h) (c ++ b1 ++ (bk ++ x00 :: an ++ e) ++ b4) = (Ok [], merge (hs_settings h) l)).
  { rewrite (read_cut strict n _ l l1 _ c b1 _ Hf El V W1). pose proof (loop_entries strict n _ _ Hf _ [] (merge (hs_settings h) l1) 0%nat W2') as X.
    rewrite app_nil_r, Nat.add_0_r in X. rewrite X. cbn [read_settings_loop]. rewrite El, merge_app. reflexivity. }
  set (l3 := match l2 with [] => [] | _ => [(py "", VStr (py ""))] end).
  assert (Rs : read_string (an ++ e1) = Ok (x1, [])).
  { unfold read_string. rewrite (rbind_step _ _ _ _ _ _ _ (array_size_reads strict _ _ _ Le Vn)).
    assert (L : zlen e1 <= zlen e) by (rewrite Ee, zlen_app; pose proof (zlen_nonneg _ e2); lia).
    rewrite (rbind_step _ _ _ _ _ _ _ (short_bytes _ _ L)). unfold rlift. apply is_utf8_encode in U1. rewrite (utf8_decode_encode _ _ U1). reflexivity. }
  assert (R2 : exists r2, read_settings (e_fuel ev) (hs_settings h) (c ++ b1 ++ bk ++ x00 :: an ++ e1) = (Ok r2, merge (hs_settings h) (l1 ++ (k, VStr x1) :: l3))).
  { rewrite (read_cut strict n _ l l1 _ c b1 _ Hf El V W1), merge_app. cbn [length read_settings_loop].
    rewrite (rbind_step _ _ _ _ _ _ _ (string_reads strict k bk _ I Wk)).
    assert (Rg : read_generic_value (e_fuel ev) (x00 :: an ++ e1) = Ok (VStr x1, [])).
    { destruct (e_fuel ev); [lia|]. cbn [read_generic_value]. rewrite (rbind_step _ _ _ _ _ _ _ (read_byte_cons _ _)). 
      change (sbyte x00) with 0. cbn [Z.eqb]. rewrite (rbind_step _ _ _ _ _ _ _ Rs). reflexivity. }
    rewrite (rbind_step _ _ _ _ _ _ _ Rg). cbn [rret]. unfold merge at 2. cbn [fold_left fst snd]. fold (merge (dict_set streqb k (VStr x1) (merge (hs_settings h) l1)) l3).
    unfold l3. destruct l2 as [|y l2]; [eexists; reflexivity|].
    apply loop_nothing; [lia|cbn; lia]. }
  destruct R2 as (r2 & R2).
  destruct (both_read ev m _ _ _ _ _ _ h Wf R1 R2) as (r & h1 & h2 & E3 & E4 & L1 & L2 & E5). exists r, h1, h2. auto.
Qed.
Print Assumptions C118_cut_text_refuted.
(** an example: two settings, the first being where to reach OpenSearch *)
Definition ex_two : list (pystr * pyval) := [(py "http.host", VStr (py "10.0.0.12")); (py "node.name", VStr (py "a"))].
Definition ex_two_bytes : bytes := match write_settings ex_two with Ok b => b | Raise _ => [] end.
Lemma ex_two_wire : w_list true (entry true 0) ex_two ex_two_bytes.
Proof.
  assert (N : w_vint true 2 [x02]) by (split; [constructor; reflexivity|]; split; [discriminate|]; intros H; discriminate H).
  assert (S : forall x bs, text_ok x -> write_string x = Ok bs -> w_string true x bs) by (intros x bs T E; apply (by_writer _ _ _ _ _ _ (string_writes true)); assumption).
  assert (En : forall k x a b, text_ok k -> text_ok x -> write_string k = Ok a -> write_string x = Ok b -> entry true 0 (k, VStr x) (a ++ x00 :: b)).
  { intros k x a b Tk Tx Ea Eb. unfold entry. cbn [fst snd]. apply parts_cons; [apply S; assumption|]. apply parts_one.
    split; [constructor; apply S; assumption|constructor; discriminate]. }
  unfold w_list, ex_two. cbn [map].
  change ex_two_bytes with ([x02] ++ (map z2b ([9] ++ py "http.host") ++ x00 :: map z2b ([9] ++ py "10.0.0.12")) ++ (map z2b ([9] ++ py "node.name") ++ x00 :: map z2b ([1] ++ py "a"))).
  apply parts_cons; [exact N|]. apply parts_cons; [apply En; [text|text|reflexivity|reflexivity]|].
  apply parts_one. apply En; [text|text|reflexivity|reflexivity].
Qed.
Definition ex_waiting : host Z := feed ex_env ex_ext (initial_host 0) [([], ex_raw (ex_init 77)); ([], ex_answer 3 [x01])].
Example C118_cut_case : waits_for ex_waiting 2 EnvRH /\ w_list true (entry true 0) ex_two (m_payload (ex_reply 2 ex_two_bytes)) /\
  w_frame true (ex_reply 2 ex_two_bytes) (ex_answer 2 ex_two_bytes) /\ Forall length_prefix_ok (ctx_strings (m_ctx (ex_reply 2 ex_two_bytes))) /\ (0 < e_fuel ex_env)%nat /\
  let cut n := on_input ex_env ex_ext [] (firstn (List.length (ex_answer 2 ex_two_bytes) - n) (ex_answer 2 ex_two_bytes)) ex_waiting in
  let whole := on_input ex_env ex_ext [] (ex_answer 2 ex_two_bytes) ex_waiting in
  (exists out, fst whole = Ok (Some out)) /\ fst (cut 0%nat) = fst whole /\ hs_settings (snd (cut 0%nat)) = ex_two /\
  fst (cut 13%nat) = fst whole /\ hs_settings (snd (cut 13%nat)) = [(py "http.host", VStr (py "10.0.0.12")); (py "", VStr (py ""))] /\
  fst (cut 14%nat) = fst whole /\ hs_settings (snd (cut 14%nat)) = [(py "http.host", VStr (py "10.0.0.1")); (py "", VStr (py ""))].
Proof.
  split; [vm_compute; reflexivity|]. split; [exact ex_two_wire|]. split; [apply ex_reply_message; [discriminate|vm_compute; discriminate]|]. split; [exact ex_prefix|].
  split; [vm_compute; repeat constructor|]. cbv zeta. split; [eexists; vm_compute; reflexivity|]. repeat (split; [vm_compute; reflexivity|]). vm_compute. reflexivity.
Qed.
Lemma settings_depth strict d bs : w_settings strict d bs -> exists n, w_dict strict (fun v b => w_generic strict v b /\ nested v n) d bs.
Proof.
  intros (l & Df & C & W). assert (N : exists n, Forall (fun kv => nested (snd kv) n) l).
  { destruct (nested_enough (VList (map snd l))) as (n & N). inversion N as [? ? F|? k F]; subst; [exfalso; eapply F; reflexivity|].
    exists k. apply Forall_map in F. exact F. }
  destruct N as (n & N). exists n, l. split; [exact Df|]. split; [exact C|]. unfold w_list in *. apply parts_cons_inv in W as (a & b & -> & V & W).
  constructor; [exact V|]. clear - N W. revert b W. induction N as [|kv l H _ IH]; intros b W; [exact W|].
  cbn [map] in *. apply parts_cons_inv in W as (x & y & -> & P & W). constructor; [|apply IH, W].
  apply parts_cons_inv in P as (k & v & -> & P & Q). apply parts_one_inv in Q. constructor; [exact P|]. apply parts_one. auto.
Qed.
Theorem C118_refuted : ~ C118_statement.
Proof.
  intros St. set (raw := ex_answer 2 ex_two_bytes). set (k := (List.length raw - 14)%nat).
  destruct (St Z ex_env ex_ext 0 [ex_init 77; ex_reply 3 [x01]; ex_reply 2 ex_two_bytes] [ex_raw (ex_init 77); ex_answer 3 [x01]; raw]
    [([], ex_raw (ex_init 77)); ([], ex_answer 3 [x01]); ([], firstn k raw); ([], skipn k raw)] ex_env_ok) with (key := py "http.host") (v := VStr (py "10.0.0.1"))
    as (m & strict & d & Im & W & G).
  - constructor; [exists false; split; [discriminate|]; split; [exact ex_prefix|]; apply ex_wire; [text|discriminate|vm_compute; discriminate]|].
    constructor; [exists true; split; [discriminate|]; split; [exact ex_prefix|]; apply ex_reply_message; [discriminate|vm_compute; discriminate]|].
    constructor; [|constructor]. exists true; split; [discriminate|]; split; [exact ex_prefix|]; apply ex_reply_message; [discriminate|vm_compute; discriminate].
  - vm_compute. reflexivity.
  - repeat (constructor; [vm_compute; split; [reflexivity|discriminate]|]). constructor.
  - vm_compute. reflexivity.
  - assert (X : exists n, read_dict (read_generic_value (S n)) (m_payload m ++ []) = Ok (d, [])).
    { destruct (settings_depth _ _ _ W) as (n & W'). exists n. refine (dict_reads strict _ _ _ _ d _ [] I W').
      intros v bs s _ [H Hn]. exact (generic_reads strict (S n) n ltac:(lia) v bs s Hn H). }
    destruct X as (n & X). rewrite app_nil_r in X. destruct Im as [<-|[<-|[<-|[]]]]; vm_compute in X; apply Ok_inj, pair_equal_spec in X as [<- X]; [discriminate X|vm_compute in G; discriminate G..].
Qed.
Print Assumptions C118_refuted.

(** C118, what holds: if every message comes in a chunk of its own (whatever follows it there), and
    what answers the host's request for settings are settings, then a setting the host knows was in
    one of those answers, with that value. *)
Theorem C118_whole_partial : forall U ev (ext : extension U) u l, set_order_ok (e_so ev) ->
  (forall l1 x l2, l = l1 ++ x :: l2 -> exists resp err m, frame_in resp err m (snd x) /\
     (resp = true -> waits_for (feed ev ext (initial_host u) l1) (m_id m) EnvRH ->
        exists strict n d, (n < e_fuel ev)%nat /\ w_dict strict (fun v b => w_generic strict v b /\ nested v n) d (m_payload m))) ->
  forall key v, dict_get streqb key (hs_settings (feed ev ext (initial_host u) l)) = Some v ->
  exists x m strict d, In x l /\ frame_in true false m (snd x) /\
    w_dict strict (w_generic strict) d (m_payload m) /\ dict_get streqb key d = Some v.
Proof.
  intros U ev ext u l So. induction l as [|x l IH] using rev_ind; intros H key v G; [discriminate G|].
  rewrite feed_snoc in G. set (h := feed ev ext (initial_host u) l) in *.
  assert (Old : dict_get streqb key (hs_settings h) = Some v -> exists y m strict d, In y (l ++ [x]) /\ frame_in true false m (snd y) /\
    w_dict strict (w_generic strict) d (m_payload m) /\ dict_get streqb key d = Some v).
  { intros G'. destruct (IH) with (key := key) (v := v) as (y & m & strict & d & Iy & R); [|exact G'|exists y, m, strict, d; split; [apply in_or_app; auto|exact R]].
    intros l1 y l2 E. destruct (H l1 y (l2 ++ [x])) as (resp & err & m & F & W); [rewrite E, <- app_assoc; reflexivity|]. exists resp, err, m. auto. }
  destruct (H l x []) as (resp & err & m & F & W); [reflexivity|]. fold h in W. destruct resp.
  - destruct (frame_in_response (e_so ev) err m (snd x) So F) as (s & R). rewrite (on_response _ _ _ _ _ _ R) in G. destruct err; [apply Old, G|].
    unfold handle_response in G. cbn [hs_pending set_next] in G. destruct (dict_get Z.eqb (m_id m) (hs_pending h)) as [[o|]|] eqn:Gp; [| |apply Old, G].
    + cbv zeta in G. unfold handle_register in G. destruct (read_ack (m_payload m ++ s)) as [[b t]|e]; [|apply Old, G].
      rewrite hbind_hlift in G. cbn [fst] in G. destruct b; [|apply Old, G]. unfold send in G. destruct (write_outbound o) as [out|e]; [|apply Old, G].
      rewrite hbind_hlift in G. apply Old, G.
    + destruct (W eq_refl Gp) as (strict & n & d & Hf & Wd).
      destruct (settings_into strict n (e_fuel ev) d _ s (hs_settings h) Hf Wd) as (new & Rs & L).
      assert (G' : dict_get streqb key new = Some v).
      { cbv zeta in G. unfold handle_env in G. cbn [hs_settings set_pending set_next] in G. rewrite Rs in G. cbv zeta in G. cbn [hs_init set_settings set_pending set_next] in G.
        destruct (hs_init h) as [o|]; [|exact G]. unfold send in G. destruct (write_outbound o) as [out|e]; [rewrite hbind_hlift in G|]; exact G. }
      rewrite L in G'. destruct (dict_get streqb key d) as [v'|] eqn:Gd; [|apply Old, G'].
      exists x, m, strict, d. split; [apply in_or_app; right; left; reflexivity|]. split; [exact F|]. split; [|congruence].
      destruct Wd as (l0 & Df & C & Wl). exists l0. split; [exact Df|]. split; [exact C|]. unfold w_list in *. apply parts_cons_inv in Wl as (a & b & -> & V & Wl).
      constructor; [exact V|]. clear - Wl. revert b Wl. induction l0 as [|kv l0 IH]; intros b Wl; [exact Wl|].
      cbn [map] in *. apply parts_cons_inv in Wl as (y & z & -> & P & Wl). constructor; [|apply IH, Wl].
      apply parts_cons_inv in P as (k & w & -> & P & Q). apply parts_one_inv in Q. constructor; [exact P|]. apply parts_one, Q.
  - destruct (frame_in_request (e_so ev) err m (snd x) So F) as (m' & R & _). apply Old.
    destruct (C79_kept U ev ext (fst x) (snd x) h So) as (K & _). cbv zeta in K.
    rewrite <- K; [exact G|]. intros k p _ R'. eapply request_or_response; eassumption.
Qed.
Print Assumptions C118_whole_partial.
Example C118_whole_case :
  let l := [([], ex_raw (ex_init 77)); ([], ex_answer 3 [x01]); ([], ex_answer 2 ex_two_bytes ++ [x07])] in
  (forall l1 x l2, l = l1 ++ x :: l2 -> exists resp err m, frame_in resp err m (snd x) /\
     (resp = true -> waits_for (feed ex_env ex_ext (initial_host 0) l1) (m_id m) EnvRH ->
        exists strict n d, (n < e_fuel ex_env)%nat /\ w_dict strict (fun v b => w_generic strict v b /\ nested v n) d (m_payload m))) /\
  hs_settings (feed ex_env ex_ext (initial_host 0) l) = ex_two.
Proof.
  cbv zeta. split; [|vm_compute; reflexivity]. intros l1 x l2 E.
  destruct l1 as [|y1 [|y2 [|y3 l1]]].
  - injection E as <- _. exists false, false, (ex_init 77). split; [|discriminate]. split; [exact ex_prefix|]. eexists _, []. split; [|symmetry; apply app_nil_r].
    apply ex_wire; [text|discriminate|vm_compute; discriminate].
  - injection E as <- <- _. exists true, false, (ex_reply 3 [x01]). split; [apply ex_reply_in; [discriminate|vm_compute; discriminate]|].
    intros _ W. vm_compute in W. discriminate W.
  - injection E as <- <- <- _. exists true, false, (ex_reply 2 ex_two_bytes). split.
    + split; [exact ex_prefix|]. eexists _, [x07]. split; [apply ex_reply_message; [discriminate|vm_compute; discriminate]|reflexivity].
    + intros _ _. exists true, 0%nat, ex_two. split; [vm_compute; repeat constructor|]. exists ex_two.
      split; [apply dict_from_self; repeat (constructor; [intros H; vm_compute in H; intuition discriminate|]); constructor|]. split; [reflexivity|exact ex_two_wire].
  - exfalso. apply (f_equal (@List.length _)) in E. cbn in E. rewrite app_length in E. cbn in E. lia.
Qed.
