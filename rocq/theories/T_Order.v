(** C103: the keys of a property object come in dictionary order and its answers determine it. *)
From Coq Require Import Ascii String NArith Sorted.
From Verif Require Import Base Text M_Text M_Properties S_Text S_Properties S_Order L_Text L_Order.
Open Scope char_scope.
Open Scope list_scope.

(** After any history the key iterator gives the keys without capitals, in strictly ascending dictionary order. *)
Theorem C103_order : forall m ops,
  m = empty_props \/ (exists f, propertiesOf f = Ok m) \/ (exists b d, propertiesOf2 b d = Ok m) ->
  let m' := fold_left (fun m kv => putProperty m (fst kv) (snd kv)) ops m in
  StronglySorted precedes (keys m') /\ Forall no_capitals (keys m').
Proof. exact C103_order_l. Qed.
Print Assumptions C103_order.

(** Two objects, whatever their histories, that answer every get alike are the same and list the same keys. *)
Theorem C103_answers : forall m n ops ops',
  m = empty_props \/ (exists f, propertiesOf f = Ok m) \/ (exists b d, propertiesOf2 b d = Ok m) ->
  n = empty_props \/ (exists f, propertiesOf f = Ok n) \/ (exists b d, propertiesOf2 b d = Ok n) ->
  let m' := fold_left (fun m kv => putProperty m (fst kv) (snd kv)) ops m in
  let n' := fold_left (fun m kv => putProperty m (fst kv) (snd kv)) ops' n in
  (forall k, getProperty m' k = getProperty n' k) -> keys m' = keys n' /\ m' = n'.
Proof. exact C103_answers_l. Qed.
Print Assumptions C103_answers.

(** Puts of keys that differ in more than case may be exchanged. *)
Theorem C103_exchange : forall m ops k v k' v',
  m = empty_props \/ (exists f, propertiesOf f = Ok m) \/ (exists b d, propertiesOf2 b d = Ok m) -> ~ same_word k k' ->
  let m' := fold_left (fun m kv => putProperty m (fst kv) (snd kv)) ops m in
  putProperty (putProperty m' k v) k' v' = putProperty (putProperty m' k' v') k v.
Proof. exact C103_exchange_l. Qed.
Print Assumptions C103_exchange.

(** Two histories with the same answers, and two keys that differ. *)
Example C103_case :
  let put := fun m kv => putProperty m (fst kv) (snd kv) in
  let m := fold_left put [(tx "WallU", tx "1"); (tx "area", tx "2"); (tx "wallu", tx "3")] empty_props in
  let n := fold_left put [(tx "WALLU", tx "3"); (tx "Area", tx "2")] empty_props in
  (forall k, getProperty m k = getProperty n k) /\ keys m = [tx "area"; tx "wallu"] /\ ~ same_word "area"%string "wallu"%string.
Proof. cbn. split; [reflexivity|]. split; [reflexivity|]. intros H. apply same_word_lower in H. discriminate H. Qed.
