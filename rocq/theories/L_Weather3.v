(** Cache keys, and concrete histories of a UserModel. *)
From Coq Require Import Ascii String ZArith Lia Reals Lra DecimalString List.
From Verif Require Import Base Num Xr Text M_Text M_TimeFrame M_Params M_Properties M_UserModel M_Epw M_Solar M_IsoText M_Weather S_Text S_Epw S_Solar S_Weather S_History E_Decimal E_OfficeFile L_Text L_Properties L_HourlyShape L_Epw L_Epw2 L_Solar L_Solar2 L_Solar3 L_Solar5 L_IsoText L_IsoText2 L_Weather L_Weather2.
Open Scope nat_scope.
Open Scope list_scope.
Local Strategy 1000 [obind].

(** ** Cache keys *)
Lemma lt_irrefl : forall a : xr, nlt a a = false.
Proof. intros [a| | |]; try reflexivity. cbn [nlt xr_num xlt]. unfold Rltb. destruct (Rlt_dec a a); [lra|reflexivity]. Qed.
Lemma lt_trans : forall a b c : xr, nlt a b = true -> nlt b c = true -> nlt a c = true.
Proof.
  intros [a| | |] [b| | |] [c| | |]; cbn [nlt xr_num xlt]; try discriminate; try reflexivity.
  unfold Rltb. destruct (Rlt_dec a b); [|discriminate]. destruct (Rlt_dec b c); [|discriminate]. destruct (Rlt_dec a c); [reflexivity|lra].
Qed.
Lemma lt_total : forall a b : xr, is_number a -> is_number b -> nlt a b = false -> nlt b a = false -> a = b.
Proof.
  unfold is_number. intros [a| | |] [b| | |] A B; cbn [nlt xr_num xlt]; try discriminate; try reflexivity; try congruence.
  unfold Rltb. destruct (Rlt_dec a b); [discriminate|]. destruct (Rlt_dec b a); [discriminate|]. intros _ _. f_equal. lra.
Qed.
Lemma lt_asym : forall a b : xr, nlt a b = true -> nlt b a = false.
Proof. intros a b H. destruct (nlt b a) eqn:E; [|reflexivity]. rewrite <- (lt_irrefl a). symmetry. exact (lt_trans a b a H E). Qed.

Lemma C54_order_l :
  (forall k : xr * xr, latlon_lt k k = false) /\
  (forall a b c : xr * xr, key_numbers a -> key_numbers b -> key_numbers c -> latlon_lt a b = true -> latlon_lt b c = true -> latlon_lt a c = true) /\
  (forall a b : xr * xr, key_numbers a -> key_numbers b -> (latlon_lt a b = false /\ latlon_lt b a = false <-> a = b)).
Proof.
  assert (I : forall k : xr * xr, latlon_lt k k = false) by (intros [a b]; unfold latlon_lt; cbn [fst snd]; rewrite !lt_irrefl; reflexivity).
  split; [exact I|]. split.
  - intros [a1 a2] [b1 b2] [c1 c2] [A1 A2] [B1 B2] [C1 C2]. unfold latlon_lt. cbn [fst snd] in *.
    destruct (nlt a1 b1) eqn:E1.
    + intros _. destruct (nlt b1 c1) eqn:E2; [intros _; rewrite (lt_trans _ _ _ E1 E2); reflexivity|].
      destruct (nlt c1 b1) eqn:E3; [discriminate|]. assert (b1 = c1) as <- by (apply lt_total; assumption). intros _. rewrite E1. reflexivity.
    + destruct (nlt b1 a1) eqn:E2; [discriminate|]. assert (a1 = b1) as <- by (apply lt_total; assumption). intros H.
      destruct (nlt a1 c1) eqn:E3; [reflexivity|]. destruct (nlt c1 a1) eqn:E4; [discriminate|]. intros H'. exact (lt_trans _ _ _ H H').
  - intros [a1 a2] [b1 b2] [A1 A2] [B1 B2]. split; [|intros ->; split; apply I]. unfold latlon_lt. cbn [fst snd] in *. intros [H1 H2].
    destruct (nlt a1 b1) eqn:E1; [discriminate|]. destruct (nlt b1 a1) eqn:E2; [discriminate|].
    rewrite (lt_total a1 b1), (lt_total a2 b2) by assumption. reflexivity.
Qed.
Lemma C54_lookup_l : forall k (c : list ((xr * xr) * nat)), key_numbers k -> (forall k' p, In (k', p) c -> key_numbers k') ->
  match cache_find k c with
  | Some p => In (k, p) c
  | None => forall p, ~ In (k, p) c
  end.
Proof.
  intros k c K H. unfold cache_find. destruct (find _ c) as [[k' p]|] eqn:F.
  - cbn [option_map snd]. apply find_some in F. destruct F as [F1 F2]. cbn [fst] in F2. apply andb_true_iff in F2. rewrite !negb_true_iff in F2.
    assert (k' = k) as <- by (apply (proj2 (proj2 C54_order_l)); [eapply H; exact F1|exact K|exact F2]). exact F1.
  - cbn [option_map]. intros p I. apply find_none with (x := (k, p)) in F; [|exact I]. cbn [fst] in F. rewrite (proj1 C54_order_l k) in F. discriminate.
Qed.
Lemma C54_nan_l : exists a b c : xr * xr, a <> b /\ latlon_lt a b = false /\ latlon_lt b a = false /\ latlon_lt b c = false /\ latlon_lt c b = false /\ latlon_lt a c = true.
Proof.
  exists (Fin 1, Fin 0), (NaN, Fin 0), (Fin 2, Fin 0). unfold latlon_lt. cbn [fst snd nlt xr_num xlt]. unfold Rltb.
  destruct (Rlt_dec 0 0); [lra|]. destruct (Rlt_dec 1 2); [|lra]. split; [intros E; assert (Q : forall a b c d : xr, (a, b) = (c, d) -> a = c) by (intros; congruence); apply Q in E; discriminate|]. repeat split; reflexivity.
Qed.

(** ** Writing numbers: a writer for the concrete cases, integer parts only. *)
Definition whole (x : xr) : text :=
  match x with
  | Fin r => tx (NilZero.string_of_int (Z.to_int (Int_part r)))
  | PInf => tx "inf" | NInf => tx "-inf" | NaN => tx "nan"
  end.
Definition clean (s : text) : Prop := ~ In ","%char s /\ ~ In newline s.
Lemma clean_uint : forall u, clean (tx (NilEmpty.string_of_uint u)).
Proof.
  assert (C : forall c s, c <> ","%char -> c <> newline -> clean (tx s) -> clean (tx (String c s))).
  { intros c s N1 N2 [A B]. split; (intros [I|I]; [congruence|first [exact (A I)|exact (B I)]]). }
  induction u; [split; intros []|..]; cbn [NilEmpty.string_of_uint]; (apply C; [discriminate|discriminate|exact IHu]).
Qed.
Lemma clean_uint0 : forall u, clean (tx (NilZero.string_of_uint u)) /\ tx (NilZero.string_of_uint u) <> [].
Proof.
  intros u. destruct u; [split; [split; intros I; cbn in I; decompose [or] I; try discriminate; contradiction|discriminate]|..];
    (split; [exact (clean_uint _)|discriminate]).
Qed.
Lemma whole_writes : writes_numbers whole.
Proof.
  intros [r| | |]; try (cbv; split; [discriminate|split; intros I; decompose [or] I; try discriminate; contradiction]).
  cbn [whole]. destruct (Z.to_int (Int_part r)) as [u|u].
  - cbn [NilZero.string_of_int]. destruct (clean_uint0 u) as [[A B] C]. repeat split; assumption.
  - cbn [NilZero.string_of_int]. destruct (clean_uint0 u) as [[A B] C]. split; [discriminate|]. split; (intros [I|I]; [discriminate|first [exact (A I)|exact (B I)]]).
Qed.

(** ** A year of one value *)
Definition block (lat v : R) : list xr := Fin lat :: Fin 0 :: zn 0 :: repeat (Fin v) (7 * slices).
Lemma block_loads_ok : forall lat v (e : epw xr), List.length (ep_data e) = 7 -> exists e',
  loadBlock (Z.of_nat slices) (block lat v) e = Ok e' /\ year_table (ep_data e') /\ ep_site e' = Some (Fin lat, Fin 0, 0%Z) /\
  cell (ep_data e') 0 0 = Some (Fin v).
Proof.
  intros lat v e L. destruct (loadBlock_ok slices (block lat v) e (Fin lat) (Fin 0) (zn 0) 0%Z L) as (e'&E&TB&S&_&_&C).
  - lia.
  - unfold block. cbn [List.length]. rewrite repeat_length. lia.
  - reflexivity.
  - reflexivity.
  - reflexivity.
  - apply L_Office.ntrunc_zn. unfold int_max. lia.
  - exists e'. split; [exact E|]. split; [apply table_year; exact TB|]. split; [exact S|].
    assert (HS : 0 < slices) by (pose proof slices_Z; lia).
    rewrite C by lia. unfold block_cell. rewrite (proj2 (Nat.ltb_lt _ _) HS). cbn [plus Nat.mul].
    unfold block. cbn [nth_error]. assert (HP : 0 < 7 * slices) by lia. destruct (7 * slices); [lia|reflexivity].
Qed.
Section Concrete.
Variable fmt : xr -> text.
Variable rd : reader xr.
Hypothesis W : writes_numbers fmt.
Lemma block_step : forall u lat v, sound u -> cache_find (Fin lat, Fin 0) (us_cache u) = None -> exists e w,
  loadWeatherBlock fmt rd (Z.of_nat slices) (block lat v) u =
    Ok (mkUser (us_building u) (us_dataFile u) (Some true) (((Fin lat, Fin 0), List.length (us_heap u)) :: us_cache u) (List.length (us_heap u))
             (Some (List.length (us_heap u))) e (us_heap u ++ [w])) /\
  initializeSolar fmt rd e = Ok w /\ year_table (ep_data e) /\ ep_site e = Some (Fin lat, Fin 0, 0%Z) /\ cell (ep_data e) 0 0 = Some (Fin v).
Proof.
  intros u lat v (S&_) CF. destruct (block_loads_ok lat v (us_edata u) S) as (e&E&Y&ST&C).
  destruct (initializeSolar_ok fmt rd W e _ _ _ ST Y) as (fr&s0&s&_&_&_&I). exists e. eexists. split; [|split; [exact I|split; [exact Y|split; [exact ST|exact C]]]].
  pose proof (loadBlock_made fmt rd (Z.of_nat slices) (block lat v) u (Fin lat) (Fin 0) eq_refl eq_refl) as M. rewrite CF in M. exact (M e _ E I).
Qed.
Lemma loadWeather_made : forall files u e w, loadFile rd (files (weatherFile files u)) (us_edata u) = Ok e -> initializeSolar fmt rd e = Ok w ->
  us_weather u < List.length (us_heap u) ->
  loadWeather fmt rd files u = Ok (mkUser (us_building u) (us_dataFile u) (if exists_file files (weatherFile files u) then us_valid u else Some false)
         (us_cache u) (us_weather u) (Some (us_weather u)) e (upd (us_heap u) (us_weather u) w)).
Proof.
  intros files u e w E I L. unfold loadWeather. cbv zeta. set (f := weatherFile files u) in *.
  set (u1 := if exists_file files f then u else set_valid false u).
  assert (E1 : us_edata u1 = us_edata u) by (subst u1; destruct (exists_file files f); reflexivity).
  rewrite E1, E. cbn [obind]. assert (ES : storeSolar fmt rd (set_edata e u1) = Ok (mkUser (us_building u1) (us_dataFile u1) (us_valid u1) (us_cache u1) (us_weather u1) (us_location u1) e (upd (us_heap u1) (us_weather u1) w))).
  { unfold storeSolar. change (us_edata (set_edata e u1)) with e. rewrite I. cbn [obind set_edata us_heap us_weather us_building us_dataFile us_valid us_cache us_location us_edata].
    rewrite vset_ok; [reflexivity|]. subst u1. destruct (exists_file files f); exact L. }
  rewrite ES. cbn [obind]. subst u1. destruct (exists_file files f); reflexivity.
Qed.
Lemma key_eq : forall a b : R, latlon_lt (Fin a, Fin 0) (Fin b, Fin 0) = true <-> (a < b)%R.
Proof.
  intros a b. unfold latlon_lt. cbn [fst snd nlt xr_num xlt]. unfold Rltb. destruct (Rlt_dec a b); [tauto|]. destruct (Rlt_dec b a); [split; [discriminate|lra]|].
  destruct (Rlt_dec 0 0); [lra|]. split; [discriminate|lra].
Qed.
Lemma find_other : forall a b p c, a <> b -> cache_find (Fin a, Fin 0) (((Fin b, Fin 0), p) :: c) = cache_find (Fin a, Fin 0) c.
Proof.
  intros a b p c H. unfold cache_find. cbn [find fst].
  assert (E : (negb (latlon_lt (Fin b, Fin 0) (Fin a, Fin 0)) && negb (latlon_lt (Fin a, Fin 0) (Fin b, Fin 0)))%bool = false).
  { destruct (Rtotal_order a b) as [L|[L|L]]; [|contradiction|].
    - rewrite (proj2 (key_eq a b) L). apply andb_false_r.
    - rewrite (proj2 (key_eq b a) L). reflexivity. }
  rewrite E. reflexivity.
Qed.
Lemma find_same : forall a p c, cache_find (Fin a, Fin 0) (((Fin a, Fin 0), p) :: c) = Some p.
Proof. intros a p c. unfold cache_find. cbn [find fst]. rewrite (proj1 C54_order_l (Fin a, Fin 0)). reflexivity. Qed.

(** Block A, block B at another place, block A again. *)
Lemma C51_hit_refuted_l : forall b, exists a1 a2 u1 u2 u3 m,
  loadWeatherBlock fmt rd 8760 a1 (newUser b) = Ok u1 /\ loadWeatherBlock fmt rd 8760 a2 u1 = Ok u2 /\ loadWeatherBlock fmt rd 8760 a1 u2 = Ok u3 /\
  create u3 = Ok m /\ cell (ep_data (hourlyWeather u3 m)) 0 0 <> nth_error a1 3.
Proof.
  intros b. rewrite <- slices_Z. exists (block 1 1), (block 2 2).
  destruct (block_step (newUser b) 1 1 (new_sound b) eq_refl) as (e1&w1&E1&_). 
  pose proof (block_sound fmt rd _ _ _ _ (new_sound b) E1) as S1. match type of E1 with _ = Ok ?x => set (u1 := x) in * end.
  destruct (block_step u1 2 2 S1) as (e2&w2&E2&_&_&_&C2). { unfold u1. cbn [us_cache]. rewrite find_other by lra. reflexivity. }
  match type of E2 with _ = Ok ?x => set (u2 := x) in * end.
  pose proof (loadBlock_made fmt rd (Z.of_nat slices) (block 1 1) u2 (Fin 1) (Fin 0) eq_refl eq_refl) as M.
  unfold u2 in M at 1. cbn [us_cache] in M. rewrite find_other in M by lra. unfold u1 in M at 1. cbn [us_cache] in M. rewrite find_same in M.
  eexists u1, u2, _, _. split; [exact E1|]. split; [exact E2|]. split; [exact M|]. split; [reflexivity|].
  unfold hourlyWeather. cbn [us_edata]. unfold u2. cbn [us_edata]. rewrite C2.
  assert (P : nth_error (block 1 1) 3 = Some (Fin 1)). { unfold block. cbn [nth_error]. assert (HP : 0 < 7 * slices) by (pose proof slices_Z; lia). destruct (7 * slices); [lia|reflexivity]. }
  rewrite P. intros Q. assert (F : forall x y, Some (Fin x) = Some (Fin y) -> x = y) by (intros; congruence). apply F in Q. lra.
Qed.
(** Block A, then other values for the same place. *)
Lemma C51_same_place_l : forall b, exists a1 a2 u1 u2 m1 m2,
  loadWeatherBlock fmt rd 8760 a1 (newUser b) = Ok u1 /\ create u1 = Ok m1 /\ loadWeatherBlock fmt rd 8760 a2 u1 = Ok u2 /\ create u2 = Ok m2 /\
  nth_error a1 3 <> nth_error a2 3 /\ hourlyWeather u2 m2 = hourlyWeather u1 m1 /\ monthlyWeather u2 m2 = monthlyWeather u1 m1.
Proof.
  intros b. rewrite <- slices_Z. exists (block 1 1), (block 1 2).
  destruct (block_step (newUser b) 1 1 (new_sound b) eq_refl) as (e1&w1&E1&_). match type of E1 with _ = Ok ?x => set (u1 := x) in * end.
  pose proof (loadBlock_made fmt rd (Z.of_nat slices) (block 1 2) u1 (Fin 1) (Fin 0) eq_refl eq_refl) as M.
  unfold u1 in M at 1. cbn [us_cache] in M. rewrite find_same in M.
  eexists u1, _, _, _. split; [exact E1|]. split; [reflexivity|]. split; [exact M|]. split; [reflexivity|]. split.
  - assert (P : forall v, nth_error (block 1 v) 3 = Some (Fin v)). { intros v. unfold block. cbn [nth_error]. assert (HP : 0 < 7 * slices) by (pose proof slices_Z; lia). destruct (7 * slices); [lia|reflexivity]. }
    rewrite !P. intros Q. assert (F : forall x y, Some (Fin x) = Some (Fin y) -> x = y) by (intros; congruence). apply F in Q. lra.
  - split; reflexivity.
Qed.
(** A model made from block A reads block B after it is loaded. *)
Lemma C52_refuted_l : forall b, exists a1 a2 u1 u2 m,
  loadWeatherBlock fmt rd 8760 a1 (newUser b) = Ok u1 /\ create u1 = Ok m /\ loadWeatherBlock fmt rd 8760 a2 u1 = Ok u2 /\
  cell (ep_data (hourlyWeather u2 m)) 0 0 <> cell (ep_data (hourlyWeather u1 m)) 0 0.
Proof.
  intros b. rewrite <- slices_Z. exists (block 1 1), (block 2 2).
  destruct (block_step (newUser b) 1 1 (new_sound b) eq_refl) as (e1&w1&E1&_&_&_&C1). 
  pose proof (block_sound fmt rd _ _ _ _ (new_sound b) E1) as S1. match type of E1 with _ = Ok ?x => set (u1 := x) in * end.
  destruct (block_step u1 2 2 S1) as (e2&w2&E2&_&_&_&C2). { unfold u1. cbn [us_cache]. rewrite find_other by lra. reflexivity. }
  match type of E2 with _ = Ok ?x => set (u2 := x) in * end. eexists u1, u2, _. split; [exact E1|]. split; [reflexivity|]. split; [exact E2|].
  unfold hourlyWeather, u1, u2. cbn [us_edata]. rewrite C1, C2. intros Q. assert (F : forall x y, Some (Fin x) = Some (Fin y) -> x = y) by (intros; congruence). apply F in Q. lra.
Qed.
(** Valid without a building, and valid although the weather file is missing. *)
Lemma C53_block_l : forall b, exists values u, loadWeatherBlock fmt rd 8760 values (newUser b) = Ok u /\ us_valid u = Some true /\ us_building u = b.
Proof.
  intros b. rewrite <- slices_Z. exists (block 1 1). destruct (block_step (newUser b) 1 1 (new_sound b) eq_refl) as (e1&w1&E1&_).
  eexists. split; [exact E1|]. split; reflexivity.
Qed.
Lemma table_columns : forall (e e' : epw xr), loadFile rd None e = Ok e' -> List.length (ep_data e) = 7 -> year_table (ep_data e') /\ ep_site e' = ep_site e.
Proof.
  intros e e' E L. unfold loadFile in E. cbv zeta in E. apply ok_eq in E. subst e'. cbn [ep_data ep_site]. split; [|reflexivity].
  apply table_year, resized_table. exact L.
Qed.
Lemma C53_missing_l : forall b : building_model xr, exists u u', reached fmt rd u /\ loadAndSetWeather fmt rd (fun _ => None) u = Ok u' /\ us_valid u' = Some true.
Proof.
  intros b. destruct (block_step (newUser b) 1 1 (new_sound b) eq_refl) as (e1&w1&E1&_&Y1&S1&_). 
  pose proof (block_sound fmt rd _ _ _ _ (new_sound b) E1) as SO. assert (R : reached fmt rd (newUser b)) by (exists b; constructor).
  match type of E1 with _ = Ok ?x => set (u1 := x) in * end.
  assert (L1 : List.length (ep_data (us_edata u1)) = 7) by apply SO.
  assert (exists e2, loadFile rd None (us_edata u1) = Ok e2) as (e2&E2) by (eexists; reflexivity).
  destruct (table_columns _ _ E2 L1) as [Y2 S2]. change (ep_site (us_edata u1)) with (ep_site e1) in S2. rewrite S1 in S2.
  destruct (initializeSolar_ok fmt rd W e2 _ _ _ S2 Y2) as (fr&s0&s&_&_&_&I2).
  exists u1. eexists. split; [exists b; eapply calls_more; [constructor|eapply call_block; exact E1]|]. split.
  - unfold loadAndSetWeather. rewrite (loadWeather_made (fun _ => None) u1 e2 _ E2 I2 (proj1 (proj2 SO))). reflexivity.
  - reflexivity.
Qed.
End Concrete.

(** ** C43 *)
Lemma C43_text_l : forall T (N : Num T) (fmt : T -> text) (rd : reader T) (a : averages T), writes_numbers fmt ->
  length (av_mdbt a) = 12 -> length (av_mwind a) = 12 -> length (av_megh a) = 12 ->
  length (av_hdbt a) = 12 -> Forall (fun r => length r = 24) (av_hdbt a) ->
  length (av_hegh a) = 12 -> Forall (fun r => length r = 24) (av_hegh a) ->
  length (av_msol a) = 12 -> Forall (fun r => length r = 8) (av_msol a) ->
  let got x := Some (rd_atof rd (fmt x)) in
  exists content w, isoText fmt a = Ok content /\ readIso rd content = Ok w /\
    wd_mdbt w = map got (av_mdbt a) /\ wd_mwind w = map got (av_mwind a) /\ wd_mEgh w = map got (av_megh a) /\
    wd_mhdbt w = map (map got) (av_hdbt a) /\ wd_mhEgh w = map (map got) (av_hegh a) /\ wd_msolar w = map (map got) (av_msol a).
Proof.
  intros T N fmt rd a W A B C D E F G H I got.
  set (z := repeat (zn 0) 12 : list T). set (zz := repeat (repeat (zn 0) 24) 12 : list (list T)).
  destruct (round_trip fmt rd W (mkAverages (av_mdbt a) z z (av_mwind a) (av_megh a) (av_msol a) (av_hdbt a) zz (av_hegh a))) as (c&P&Q).
  - unfold shaped. cbn [av_mdbt av_mdpt av_mrh av_mwind av_megh av_msol av_hdbt av_hdpt av_hegh]. unfold z, zz. rewrite !repeat_length.
    repeat (split; [first [assumption|reflexivity|split; assumption|split; [reflexivity|repeat constructor]]|]). assumption.
  - exists c. eexists. split; [exact P|]. split; [exact Q|]. repeat (split; [reflexivity|]). reflexivity.
Qed.
Lemma C43_loaded_l : forall T (N : Num T) (fmt : T -> text) (rd : reader T) (e : epw T) lat lon tz dbt dpt rh egh eb ed wind, writes_numbers fmt ->
  ep_site e = Some (lat, lon, tz) -> ep_data e = [dbt; dpt; rh; egh; eb; ed; wind] -> year_table (ep_data e) ->
  let got x := Some (rd_atof rd (fmt x)) in
  exists frame s0 s w, timeFrame = Ok frame /\ newSolar e PI_ = Ok s0 /\ calculate frame (ep_data e) s0 = Ok s /\ initializeSolar fmt rd e = Ok w /\
    wd_mdbt w = map got (monthly_means dbt) /\ wd_mwind w = map got (monthly_means wind) /\ wd_mEgh w = map got (monthly_means egh) /\
    wd_mhdbt w = map (map got) (hourly_means dbt) /\ wd_mhEgh w = map (map got) (hourly_means egh) /\
    forall k j, k < 12 -> j < 8 -> cell (wd_msolar w) k j = option_map got (nth_error (monthly_means (surface_series j (so_eglobe s))) k).
Proof.
  intros T N fmt rd e lat lon tz dbt dpt rh egh eb ed wind W S D Y got.
  destruct (initializeSolar_ok fmt rd W e lat lon tz S Y) as (frame&s0&s&E1&E2&E3&E4).
  pose proof Y as Y'. rewrite D in Y'.
  destruct (C39_calculated_l frame e PI_ s0 [] s0 dbt dpt rh egh eb ed wind E1 E2 (Forall_nil _) eq_refl Y') as (s'&F&M1&M2&M3&M4&M5&M6&M7&M8&M9).
  rewrite D in E3. assert (s' = s) as -> by (rewrite E3 in F; assert (Q : forall (a b : solar T), Ok a = Ok b -> b = a) by (intros; congruence); exact (Q _ _ F)).
  exists frame, s0, s, (iso_result fmt rd (so_avg s)). rewrite D. split; [exact E1|]. split; [exact E2|]. split; [exact E3|]. split; [exact E4|].
  unfold iso_result. cbn [wd_mdbt wd_mwind wd_mEgh wd_mhdbt wd_mhEgh wd_msolar]. rewrite M1, M4, M5, M6, M8. repeat (split; [reflexivity|]).
  intros k j K J. rewrite <- (M9 k j K J). unfold cell. rewrite nth_error_map. destruct (nth_error (av_msol (so_avg s)) k) as [r|]; [|reflexivity].
  cbn [option_map]. rewrite nth_error_map. reflexivity.
Qed.

(** ** C50, C53: concrete cases *)
Lemma C50_bare_l : resolveFilename (tx "building.ism") (tx "weather.epw") = tx "bweather.epw".
Proof. reflexivity. Qed.
Lemma C50_bare_refuted_l : exists base rel, Forall (fun c => ~ is_separator c) base /\ Forall (fun c => ~ is_separator c) rel /\ resolveFilename base rel <> rel.
Proof.
  exists (tx "building.ism"), (tx "weather.epw"). assert (S : forall s, forallb (fun c => negb (Ascii.eqb c "/" || Ascii.eqb c "\"))%char s = true -> Forall (fun c => ~ is_separator c) s).
  { intros s H. rewrite forallb_forall in H. apply Forall_forall. intros c I. specialize (H c I). intros [-> | ->]; discriminate. }
  split; [apply S; reflexivity|]. split; [apply S; reflexivity|]. rewrite C50_bare_l. discriminate.
Qed.
Lemma C51_case_l : forall fmt rd b, writes_numbers fmt -> exists values u, loadWeatherBlock fmt rd 8760 values (newUser b) = Ok u /\
  reached fmt rd u /\ us_cache u <> [].
Proof.
  intros fmt rd b W. destruct (block_step fmt rd W (newUser b) 1 1 (new_sound b) eq_refl) as (e&w&E&_).
  rewrite slices_Z in E. eexists. eexists. split; [exact E|]. split; [exists b; eapply calls_more; [constructor|eapply call_block; exact E]|discriminate].
Qed.
Lemma C53_throw_refuted_l : forall T (N : Num T) (fmt : T -> text), exists (rd : reader T) files f u u' x,
  load fmt rd files f u = (u', Throw x) /\ us_valid u' = Some true.
Proof.
  intros. exists decimal_reader, (fun _ => Some (tx "heatingFuelType = coal" ++ [newline] ++ officeText)), (tx "a.ism"), (newUser freshOffice).
  eexists. eexists. split; vm_compute; reflexivity.
Qed.
Lemma C53_fresh_l : forall T (N : Num T) (b : building_model T), us_valid (newUser b) = None /\ create (newUser b) = UB.
Proof. intros. split; reflexivity. Qed.
