(** Temperatures of a year and earlier weather. *)
From Coq Require Import ZArith List Lia.
From Verif Require Import Base Num M_TimeFrame M_Params M_Hourly S_Trace L_HourlyShape L_HourlyOut.
Import ListNotations.

Section Trace.
Context {T : Type} {N : Num T}.
Lemma yearLoop_run p i tbl frame : forall ws th raw, yearLoop p i tbl frame ws th = Ok raw -> exists temps, hours_run (T := T) p i tbl frame ws th raw temps.
Proof.
  induction frame as [|[c|] frame IH]; intros ws th raw H; cbn [yearLoop] in H.
  - injection H as <-. exists []. constructor.
  - destruct ws as [|w ws]; [discriminate H|]. destruct (negb (nine (we_sol w))); [discriminate H|].
    apply obind_ok in H as (sc & Hsc & H). destruct (calculateHour p i sc w th) as [r th'] eqn:E. apply obind_ok in H as (rs & Hrs & H). injection H as <-.
    destruct (IH _ _ _ Hrs) as (temps & R). exists (th' :: temps). econstructor; eassumption.
  - discriminate H.
Qed.
Lemma run_causal p i tbl frame ws th raw temps : hours_run (T := T) p i tbl frame ws th raw temps -> forall ws' raw' temps' n, hours_run p i tbl frame ws' th raw' temps' ->
  firstn n ws = firstn n ws' -> firstn n raw = firstn n raw' /\ firstn n temps = firstn n temps'.
Proof.
  induction 1 as [ws th|c frame w ws th sc r th' raw temps S C R IH]; intros ws' raw' temps' n H E.
  - inversion H; subst. split; reflexivity.
  - inversion H; subst. destruct n as [|n]; [split; reflexivity|]. cbn [firstn] in E. injection E as <- E.
    match goal with A : sched_at _ _ _ = Ok ?x |- _ => rewrite S in A; injection A as <- end.
    match goal with A : calculateHour _ _ _ _ _ = (_, _) |- _ => rewrite C in A; injection A as <- <- end.
    match goal with A : hours_run _ _ _ frame _ _ _ _ |- _ => destruct (IH _ _ _ n A E) as [E1 E2] end. cbn [firstn]. split; f_equal; assumption.
Qed.
Lemma C17_run_l (p : params_t T) ws r0 raw r : simulateRaw p ws r0 = Ok (raw, r) -> exists temps, run_temperatures p ws r0 raw temps /\ length temps = length raw.
Proof.
  unfold simulateRaw. intros H. apply obind_ok in H as (tbl & Ht & H). apply obind_ok in H as (i & Hi & H). apply obind_ok in H as (fr & Hf & H). apply obind_ok in H as (rw & Hr & H).
  injection H as <- _. destruct (yearLoop_run _ _ _ _ _ _ _ Hr) as (temps & R). exists temps. split; [exists tbl, i, fr; auto|].
  clear - R. induction R; cbn; congruence.
Qed.
Lemma C17_temperatures_l (p : params_t T) ws ws' r0 n raw raw' temps temps' : firstn n ws = firstn n ws' ->
  run_temperatures p ws r0 raw temps -> run_temperatures p ws' r0 raw' temps' -> firstn n temps = firstn n temps'.
Proof.
  intros E (tbl & i & fr & A1 & A2 & A3 & R) (tbl' & i' & fr' & B1 & B2 & B3 & R'). rewrite A1 in B1. injection B1 as <-. rewrite A2 in B2. injection B2 as <-. rewrite A3 in B3. injection B3 as <-.
  exact (proj2 (run_causal _ _ _ _ _ _ _ _ R _ _ _ n R' E)).
Qed.
End Trace.
