(** Lemmas about the accessors of UserModel. *)
From Coq Require Import Ascii String Lia.
From Verif Require Import Base Num Text M_Text M_Properties M_Params M_UserModel.
From Verif Require Import S_Text S_Loading L_Text L_UserModel L_Loading M_Access S_Access.
Open Scope list_scope.

Lemma named_in {A} n (l : list (string * A)) : In n (map fst l) -> exists a, named n l = Some a /\ In (n, a) l.
Proof.
  induction l as [|[m a] l IH]; intros H; [destruct H|]. cbn in *.
  destruct (String.eqb n m) eqn:E.
  - apply String.eqb_eq in E. subst. eauto.
  - destruct H as [H|H]; [subst; rewrite String.eqb_refl in E; discriminate|].
    destruct (IH H) as (b & B1 & B2). eauto.
Qed.
Lemma named_some {A} n (l : list (string * A)) a : named n l = Some a -> In (n, a) l.
Proof.
  induction l as [|[m b] l IH]; intros H; [discriminate|]. cbn in *.
  destruct (String.eqb n m) eqn:E.
  - apply String.eqb_eq in E. injection H as ->. subst. auto.
  - auto.
Qed.

Lemma get_num_same {T} f (u : building_model T) : M_Access.get_num f u = L_UserModel.get_num f u.
Proof. destruct f; try reflexivity; destruct f; reflexivity. Qed.
Lemma num_get_set {T} f g (x : T) u :
  M_Access.get_num f (set_num g x u) = if num_eq_dec f g then x else M_Access.get_num f u.
Proof. rewrite !get_num_same. apply num_lens. Qed.

Lemma vec_eq_dec : forall f g : vec_field, {f = g} + {f <> g}.
Proof. decide equality. Defined.
Lemma extra_eq_dec : forall f g : extra_field, {f = g} + {f <> g}.
Proof. decide equality. Defined.
Lemma code_eq_dec : forall f g : code_field, {f = g} + {f <> g}.
Proof. decide equality. Defined.
Lemma slot_eq_dec : forall f g : slot, {f = g} + {f <> g}.
Proof.
  decide equality; [apply num_eq_dec|apply code_eq_dec|apply extra_eq_dec|apply PeanoNat.Nat.eq_dec|apply vec_eq_dec].
Defined.

Lemma vec_get_put {T} f g (x : list T) p :
  get_vec f (put_vec g x p) = if vec_eq_dec f g then x else get_vec f p.
Proof. destruct f, g; reflexivity. Qed.
Lemma extra_get_set {T} f g (x : T) e :
  get_extra f (set_extra g x e) = if extra_eq_dec f g then x else get_extra f e.
Proof. destruct f, g; reflexivity. Qed.
Lemma num_put_vec {T} f g (x : list T) u :
  M_Access.get_num f (put_structure u (put_vec g x (pa_structure (bm_params u)))) = M_Access.get_num f u.
Proof. destruct f; try reflexivity. destruct f, g; reflexivity. Qed.
Lemma vec_set_num {T} f g (x : T) u :
  get_vec f (pa_structure (bm_params (set_num g x u))) = get_vec f (pa_structure (bm_params u)).
Proof. destruct g; try reflexivity. destruct f, f0; reflexivity. Qed.
Lemma code_set_num {T} f g (x : T) u : get_code f (set_num g x u) = get_code f u.
Proof. destruct f, g; try reflexivity; destruct f; reflexivity. Qed.
Lemma flag_set_num {T} g (x : T) u :
  ve_vent_rate_flag (pa_ventilation (bm_params (set_num g x u))) = ve_vent_rate_flag (pa_ventilation (bm_params u)).
Proof. destruct g; try reflexivity. destruct f; reflexivity. Qed.
Lemma code_put_vec {T} f (x : structure_t T) u : get_code f (put_structure u x) = get_code f u.
Proof. destruct f; reflexivity. Qed.

(** All vectors nine long, by field. *)
Definition nine {T} (u : user_state T) : Prop :=
  forall f, List.length (get_vec f (pa_structure (bm_params (us_model u)))) = 9%nat.
Lemma nine_iff {T} (u : user_state T) : nine_each u <-> nine u.
Proof.
  split.
  - intros H f. unfold nine_each, required_vectors in H.
    destruct f; cbn [get_vec]; eapply (H _ (fun u => _ (pa_structure (bm_params u)))); cbn [In]; eauto 20.
  - intros H k p I. unfold required_vectors in I. cbn [In] in I.
    repeat (destruct I as [I|I]; [apply pair_equal_spec in I; destruct I as [_ <-];
      first [apply (H V_wallArea)|apply (H V_wallU)|apply (H V_wallEmissivity)|apply (H V_wallAbsorption)|apply (H V_windowArea)
            |apply (H V_windowU)|apply (H V_windowSHGC)|apply (H V_windowSCF)|apply (H V_windowSDF)]|]).
    destruct I.
Qed.

Lemma upd_len {A} (v : list A) i x : List.length (upd v i x) = List.length v.
Proof. revert i. induction v as [|a v IH]; intros [|i]; cbn; auto. Qed.
Lemma upd_nth {A} (v : list A) i j x : (i < List.length v)%nat ->
  nth_error (upd v i x) j = if Nat.eqb j i then Some x else nth_error v j.
Proof.
  revert i j. induction v as [|a v IH]; intros [|i] [|j] H; cbn in H |- *; try lia; try reflexivity.
  apply IH. lia.
Qed.

Section Access.
Context {T : Type} {N : Num T}.
Implicit Types u : user_state T.

Definition writable (s : slot) : bool :=
  match s with S_num _ | S_extra _ => true | S_elem _ i => Nat.ltb i 9 | S_code _ | S_rate_flag => false end.

Lemma write_read s x u : nine u -> writable s = true ->
  exists u', write_slot s x u = Ok u' /\ nine u' /\ read_slot s u' = Ok x /\
  (forall s', s' <> s -> read_slot s' u' = read_slot s' u) /\
  us_schedule u' = us_schedule u /\ bm_weatherFilePath (us_model u') = bm_weatherFilePath (us_model u) /\
  cl_forcedAir (pa_cooling (bm_params (us_model u'))) = cl_forcedAir (pa_cooling (bm_params (us_model u))) /\
  ht_forcedAir (pa_heating (bm_params (us_model u'))) = ht_forcedAir (pa_heating (bm_params (us_model u))).
Proof.
  intros H9 W. destruct s as [f|f|f| |f i]; try discriminate W; cbn [write_slot].
  - eexists; split; [reflexivity|]. split; [|split; [|split]].
    + intros g. cbn. rewrite vec_set_num. apply H9.
    + cbn. rewrite num_get_set. destruct (num_eq_dec f f); congruence.
    + intros s' D. destruct s' as [g|g|g| |g j]; cbn.
      * rewrite num_get_set. destruct (num_eq_dec g f); congruence.
      * rewrite code_set_num. reflexivity.
      * reflexivity.
      * rewrite flag_set_num. reflexivity.
      * rewrite vec_set_num. reflexivity.
    + cbn. split; [reflexivity|]. destruct f; try (repeat split; reflexivity); destruct f; repeat split; reflexivity.
  - eexists; split; [reflexivity|]. split; [exact H9|]. split; [|split; [|repeat split]].
    + cbn. rewrite extra_get_set. destruct (extra_eq_dec f f); congruence.
    + intros s' D. destruct s' as [g|g|g| |g j]; cbn; try reflexivity.
      rewrite extra_get_set. destruct (extra_eq_dec g f); congruence.
  - change (Nat.ltb i 9 = true) in W. apply Nat.ltb_lt in W. unfold vset. rewrite (H9 f). pose proof W as W'. apply Nat.ltb_lt in W'. rewrite W'. cbn [obind].
    eexists; split; [reflexivity|]. split; [|split; [|split; [|repeat split]]].
    + intros g. cbn. rewrite vec_get_put. destruct (vec_eq_dec g f) as [->|]; [|apply H9]. rewrite upd_len. apply H9.
    + cbn. rewrite vec_get_put. destruct (vec_eq_dec f f); [|congruence]. unfold vget. rewrite upd_nth by (rewrite H9; exact W).
      rewrite PeanoNat.Nat.eqb_refl. reflexivity.
    + intros s' D. destruct s' as [g|g|g| |g j]; cbn; try reflexivity.
      * rewrite num_put_vec. reflexivity.
      * rewrite vec_get_put. destruct (vec_eq_dec g f) as [->|]; [|reflexivity].
        unfold vget. rewrite upd_nth by (rewrite H9; exact W).
        destruct (PeanoNat.Nat.eqb_spec j i); congruence.
Qed.

Lemma setters_writable : forallb (fun r => writable (snd r)) setters = true.
Proof. vm_compute. reflexivity. Qed.

(** The names of setters and getters fit: a setter and a getter share a member exactly when the
    names say so. *)
Definition fits (f g : string) : bool :=
  String.eqb f (setter_name g) ||
  (String.eqb f "setDhwDistributionSystem" && String.eqb g "dhwDistributionEfficiency").
Definition same_slot (a b : slot) : bool := if slot_eq_dec a b then true else false.
Lemma names_fit : forallb (fun r => forallb (fun q => Bool.eqb (same_slot (snd r) (snd q)) (fits (fst r) (fst q))) getters) setters = true.
Proof. vm_compute. reflexivity. Qed.

End Access.
