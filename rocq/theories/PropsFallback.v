(** * Property C97: fallbacks of settings *)
From Coq Require Import String ZArith List Bool.
From Verif Require Import Py Stream Version Settings PyFacts Spec SpecFacts SettingsFacts PropsSettings.
Import ListNotations.
Open Scope list_scope.
Open Scope Z_scope.

(** the key has a value in the settings that [get] takes: not None, False, 0 or empty *)
Definition configured (rp : pyval -> pystr) (d : sdict pyval) (key : pystr) (x : pystr) : Prop :=
  exists v, In (key, v) d /\ ~ falsy v /\ str_of rp v x /\ x <> [].
(** the key is not in the settings at all *)
Definition absent (d : sdict pyval) (key : pystr) : Prop := ~ In key (map fst d).

(** C97: a setting that is not configured has the value of its fallback, if it has one *)
Definition C97_statement : Prop := forall A rp key default (f : setting_obj A) parse validate d,
  NoDup (map fst d) -> absent d key ->
  setting_obj_get rp (mkSettingObj key default (Some f) parse validate) d = setting_obj_get rp f d.

Lemma get_absent rp d k (N : absent d k) def : settings_get rp d k def = def.
Proof.
  unfold settings_get. destruct (dict_get streqb k d) as [v|] eqn:G; [|reflexivity].
  exfalso. apply N. apply (dict_get_In streqb streqb_eq) in G. apply in_map_iff. exists (k, v). auto.
Qed.
(** Refuted: Setting.get never asks its fallback. *)
Definition ex_primary : setting_obj pystr :=
  mkSettingObj (py "new.key") (fun _ => Ok (py "default"))
    (Some (mkSettingObj (py "old.key") (fun _ => Ok (py "default")) None Ok None)) Ok None.
Theorem C97_ignored_refuted : ~ C97_statement.
Proof.
  intros S. specialize (S pystr (fun _ => []) (py "new.key") (fun _ => Ok (py "default"))
    (mkSettingObj (py "old.key") (fun _ => Ok (py "default")) None Ok None) Ok None [(py "old.key", VStr (py "value"))]).
  assert (E : Ok (py "default") = Ok (py "value")); [|vm_compute in E; discriminate].
  apply S; [constructor; [intros []|constructor]|]. intros [H|[]]. vm_compute in H. discriminate.
Qed.
Print Assumptions C97_ignored_refuted.

Lemma configured_get rp d key x : NoDup (map fst d) -> configured rp d key x -> settings_get rp d key None = Some x /\ x <> [].
Proof.
  intros N (v & I & T & S & X). split; [|exact X]. apply str_of_py in S. subst x.
  unfold settings_get. rewrite (dict_In_get streqb streqb_eq _ _ _ N I). destruct (truthy v) eqn:E; [reflexivity|].
  apply truthy_iff in E. contradiction.
Qed.
Lemma get_configured rp d key x : settings_get rp d key None = Some x -> x <> [] -> configured rp d key x.
Proof.
  unfold settings_get. destruct (dict_get streqb key d) as [v|] eqn:G; [|discriminate]. destruct (truthy v) eqn:E; [|discriminate].
  intros H X. injection H as <-. exists v. split; [exact (dict_get_In streqb streqb_eq _ _ _ G)|].
  split; [rewrite <- truthy_iff; congruence|]. split; [apply py_str_of|exact X].
Qed.
(** What holds: a configured value is validated and parsed; otherwise the default is computed
    from the settings and parsed, without validation; whatever the fallback. *)
Theorem C97_get_partial : forall A rp key default fallback (parse : pystr -> res A) validate d, NoDup (map fst d) ->
  let get := fun fb => setting_obj_get rp (mkSettingObj key default fb parse validate) d in
  (forall x, configured rp d key x ->
     ((validate = None \/ exists f, validate = Some f /\ f x = Ok tt) -> get fallback = parse x) /\
     (forall f e, validate = Some f -> f x = Raise e -> get fallback = Raise e)) /\
  ((forall x, ~ configured rp d key x) ->
     (forall x, default d = Ok x -> get fallback = parse x) /\ (forall e, default d = Raise e -> get fallback = Raise e)) /\
  get fallback = get None.
Proof.
  intros A rp key default fallback parse validate d N. cbv zeta. split; [|split; [|reflexivity]].
  - intros x C. destruct (configured_get _ _ _ _ N C) as [G X]. cbn [setting_obj_get]. rewrite G. destruct x as [|c t]; [contradiction|]. split.
    + intros [->|(f & -> & E)]; [reflexivity|]. rewrite E. reflexivity.
    + intros f e -> E. rewrite E. reflexivity.
  - intros C. cbn [setting_obj_get]. assert (G : settings_get rp d key None = None \/ settings_get rp d key None = Some []).
    { destruct (settings_get rp d key None) as [[|c t]|] eqn:G; auto. destruct (C (c :: t)). apply get_configured; [exact G|discriminate]. }
    split; [intros x E|intros e E]; destruct G as [-> | ->]; rewrite E; reflexivity.
Qed.
Print Assumptions C97_get_partial.
(** What a user can do instead: a default that asks the settings for the other key,
    [lambda s: s.get(other, text)], makes the setting fall back. *)
Theorem C97_by_default_partial : forall A rp key other text fallback fallback' (parse : pystr -> res A) d, NoDup (map fst d) ->
  (forall x, ~ configured rp d key x) -> (absent d other \/ exists x, configured rp d other x) ->
  setting_obj_get rp (mkSettingObj key (fun s => match settings_get rp s other (Some text) with Some x => Ok x | None => Raise EType end) fallback parse None) d
  = setting_obj_get rp (mkSettingObj other (fun _ => Ok text) fallback' parse None) d.
Proof.
  intros A rp key other text fb fb' parse d N C O.
  set (default := fun s => _).
  destruct (C97_get_partial A rp key default fb parse None d N) as (_ & H & _). specialize (H C).
  destruct O as [O|[x O]].
  - assert (D : default d = Ok text) by (unfold default; rewrite (get_absent _ _ _ O); reflexivity).
    rewrite (proj1 H _ D). cbn [setting_obj_get]. rewrite (get_absent _ _ _ O). reflexivity.
  - destruct (configured_get _ _ _ _ N O) as [G X].
    assert (D : default d = Ok x).
    { unfold default. revert G. unfold settings_get. destruct (dict_get streqb other d) as [v|]; [|discriminate]. destruct (truthy v); [|discriminate].
      intros [= ->]. reflexivity. }
    rewrite (proj1 H _ D). cbn [setting_obj_get]. rewrite G. destruct x; [contradiction|reflexivity].
Qed.
Print Assumptions C97_by_default_partial.
(** The settings of the subclasses, which the other properties are about, are settings of this kind. *)
Theorem C97_subclasses_partial : forall A rp (st : setting A) d, setting_obj_get rp (setting_obj_of st) d = setting_get rp st d.
Proof. intros A rp [ty key default parse validate props] d. reflexivity. Qed.
Print Assumptions C97_subclasses_partial.
Example C97_case : let d := [(py "old.key", VStr (py "value")); (py "new.key", VStr [])] in
  NoDup (map fst d) /\ configured (fun _ => []) d (py "old.key") (py "value") /\ (forall x, ~ configured (fun _ => []) d (py "new.key") x) /\
  setting_obj_get (fun _ => []) ex_primary d = Ok (py "default").
Proof.
  cbv zeta. split.
  { constructor; [intros [H|[]]; vm_compute in H; discriminate|]. constructor; [intros []|constructor]. }
  split. { exists (VStr (py "value")). split; [left; reflexivity|]. split; [intros H; inversion H|]. split; [constructor|discriminate]. }
  split; [|reflexivity]. intros x (v & [E|[E|[]]] & T & _).
  - apply (f_equal fst) in E. vm_compute in E. discriminate.
  - apply (f_equal snd) in E. cbn in E. subst v. apply T. constructor.
Qed.
