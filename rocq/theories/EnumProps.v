(** Property theorems about enum lists, their iterators and enum maps. *)
From Verif Require Import BaseFacts EnumModel EnumSpec EnumProofs.

(** C10: creating an enum list works exactly for distinct names, once *)
Theorem C10_created_iff_names_distinct : forall created withNone names,
  (created = false -> good_names withNone names ->
     exists e, createEnum created withNone names = Val e /\ enumNames e = names)
  /\ (created = true \/ ~ good_names withNone names ->
     createEnum created withNone names = Throw DomainError).
Proof.
  intros. destruct (create_spec created withNone names) as [H1 H2]. split; [|exact H2].
  intros Hc Hg. destruct (H1 Hc Hg) as [e [H3 [H4 _]]]. eauto.
Qed.
Print Assumptions C10_created_iff_names_distinct.

(** C10: names and values correspond one to one *)
Theorem C10_names_and_values_convert_both_ways : forall (withNone : bool) names e,
  len names < 255 -> createEnum false withNone names = Val e ->
  (forall x, x < len names ->
     exists s, nth_error names (N.to_nat x) = Some s /\ enumToString withNone e x = Val s
               /\ enumFromString e s = Val x
               /\ (withNone = true -> fromStringAllowNone e s = Val x))
  /\ (forall s, In s names \/ enumFromString e s = Throw DomainError)
  /\ (withNone = true -> enumToString withNone e (len names) = Val (b_ "None")
        /\ fromStringAllowNone e (b_ "None") = Val (len names)
        /\ fromStringAllowEmpty e [] = Val (len names)
        /\ enumFromString e (b_ "None") = Throw DomainError)
  /\ (forall x, len names + (if withNone then 1 else 0) <= x -> x < 256 ->
        enumToString withNone e x = Throw RangeError).
Proof. exact enum_roundtrip. Qed.
Print Assumptions C10_names_and_values_convert_both_ways.

(** enum class ColorUtf { Red, Green, None } with its list *)
Example C10_example :
  exists e, createEnum false true [b_ "Red"; b_ "Green"] = Val e
    /\ enumToString true e 1 = Val (b_ "Green") /\ enumFromString e (b_ "Green") = Val 1
    /\ enumToString true e 2 = Val (b_ "None") /\ enumFromString e (b_ "Blue") = Throw DomainError
    /\ createEnum false true [b_ "Red"; b_ "None"] = Throw DomainError
    /\ createEnum false false [b_ "Red"; b_ "Red"] = Throw DomainError.
Proof. eexists. repeat split; vm_compute; reflexivity. Qed.

(** C11: what indexing really does for every integer *)
Theorem C11_index_is_taken_modulo_256 : forall n i,
  checkIndex n i = if (i mod 256 <? Z.of_N n)%Z then Val (Z.to_N (i mod 256)) else Throw RangeError.
Proof. exact index_exact. Qed.
Print Assumptions C11_index_is_taken_modulo_256.

(** C11, part: the claim holds for indices from [size - 256] up to 255.  Missing: indices
    outside that range, for which it is false, see C11_large_index_refuted. *)
Theorem C11_index_checked_partial : forall n i, n <= 256 ->
  ((0 <= i < Z.of_N n)%Z -> checkIndex n i = Val (Z.to_N i))
  /\ ((Z.of_N n <= i < 256)%Z -> checkIndex n i = Throw RangeError)
  /\ ((Z.of_N n - 256 <= i < 0)%Z -> checkIndex n i = Throw RangeError).
Proof. exact index_in_range. Qed.
Print Assumptions C11_index_checked_partial.

(** C11 is false: indices 256 and -256 return the first value *)
Theorem C11_large_index_refuted :
  ~ (forall n i, n < 256 -> ~ (0 <= i < Z.of_N n)%Z -> checkIndex n i = Throw RangeError).
Proof. intro H. specialize (H 4 256%Z). vm_compute in H. discriminate H; [reflexivity|]. intros [_ H2]. discriminate H2. Qed.
Print Assumptions C11_large_index_refuted.

Example C11_example : checkIndex 4 3 = Val 3 /\ checkIndex 4 4 = Throw RangeError
  /\ checkIndex 4 (-1) = Throw RangeError /\ checkIndex 4 258 = Val 2.
Proof. vm_compute. auto. Qed.

(** C48: an iterator never leaves [begin, end], whatever is called on it; reading it
    throws exactly at end and gives the value at its position otherwise *)
Theorem C48_iterator_stays_in_range : forall ops n i j, n < 256 -> i <= n -> iterRun n i ops = Some j ->
  j <= n /\ (iterDeref n j = Throw RangeError <-> j = n)
  /\ (forall v, iterDeref n j = Val v -> v < n /\ v = j).
Proof. exact iter_run_inv. Qed.
Print Assumptions C48_iterator_stays_in_range.

(** C48: incrementing from begin visits the values in order and reaches end *)
Theorem C48_walk_visits_every_value : forall n k, n < 256 -> N.of_nat k <= n ->
  iterRun n 0 (repeat Incr k) = Some (N.of_nat k).
Proof. exact iter_walk. Qed.
Print Assumptions C48_walk_visits_every_value.

(** C48, part: a jump to a position below 256 is exact.  Missing: larger jumps, where it
    is false, see C48_large_jump_refuted. *)
Theorem C48_jump_partial : forall n i d, n < 256 -> i <= n ->
  (Z.of_N i + d < 256)%Z -> (-2^63 <= Z.of_N i + d)%Z ->
  iterPlus n i d = if ((0 <=? Z.of_N i + d) && (Z.of_N i + d <=? Z.of_N n))%Z
                   then Val (Z.to_N (Z.of_N i + d)) else Throw RangeError.
Proof. exact iter_plus_exact. Qed.
Print Assumptions C48_jump_partial.

(** C48 is false for large jumps: adding 256 to begin is accepted and gives begin *)
Theorem C48_large_jump_refuted :
  ~ (forall n i d, n < 256 -> i <= n -> (Z.of_N n < Z.of_N i + d < 2^62)%Z -> iterPlus n i d = Throw RangeError).
Proof.
  intro H. specialize (H 4 0 256%Z). vm_compute in H.
  discriminate H; [reflexivity|discriminate|split; reflexivity].
Qed.
Print Assumptions C48_large_jump_refuted.

Example C48_example : iterRun 4 0 [Incr; Incr; Decr; Plus 3; Incr; Minus 5; Minus 1] = Some 3
  /\ iterDeref 4 3 = Val 3 /\ iterPlus 4 1 3 = Val 4 /\ iterPlus 4 1 4 = Throw RangeError.
Proof. vm_compute. auto. Qed.

(** C49: after any history of assignments a map gives each value the last one assigned
    to it; None is always the default and cannot be assigned *)
Theorem C49_map_returns_last_assigned : forall V (d : V) n (ops : list (N * V)) x, n < 256 -> x < 256 ->
  Forall (fun o => fst o < 256) ops ->
  let m := mapRun (repeat d (N.to_nat n)) ops in
  (x < n -> mapGet d m x = Val (last_assigned x ops d))
  /\ (x = n -> mapGet d m x = Val d)
  /\ (n < x -> mapGet d m x = Throw RangeError)
  /\ (forall v, n <= x -> mapSet m x v = Throw RangeError).
Proof. exact enum_map_spec. Qed.
Print Assumptions C49_map_returns_last_assigned.

Example C49_example :
  let m := mapRun (repeat 0 3) [(0, 7); (3, 8); (2, 5); (0, 9)] in
  mapGet 0 m 0 = Val 9 /\ mapGet 0 m 1 = Val 0 /\ mapGet 0 m 2 = Val 5 /\ mapGet 0 m 3 = Val 0
  /\ last_assigned 0 [(0, 7); (3, 8); (2, 5); (0, 9)] 0 = 9.
Proof. vm_compute. auto 6. Qed.
