(** Properties of command line arguments. *)
From Verif Require Import BaseFacts ArgsModel ArgsSpec ArgsProofs.
Open Scope N_scope.

(** C44: the loop over the arguments ends and visits exactly the arguments left for the
    program, in order. *)
Theorem C44_loop_visits : forall fuel p l, len (p :: l) < 65535 -> (S (List.length (p :: l)) < fuel)%nat ->
  allArgs fuel (MkArgs (len (p :: l)) (Some (p :: l))) = Val (others 1 l).
Proof. exact allArgs_spec. Qed.
Print Assumptions C44_loop_visits.
Theorem C44_no_arguments : forall fuel, (0 < fuel)%nat -> allArgs fuel noArgs = Val [].
Proof. exact allArgs_none. Qed.
Print Assumptions C44_no_arguments.

(** C44: what is visited is never one of the options, and without "-data" nothing else is
    left out. *)
Theorem C44_visited_not_options : forall l j, In j (others 1 l) ->
  1 <= j /\ exists s, nth_error l (N.to_nat (j - 1)) = Some s /\ ~ is_option s.
Proof. intros l j. apply (others_sound (List.length l) l 1 j). apply le_n. Qed.
Print Assumptions C44_visited_not_options.
Theorem C44_nothing_lost : forall l j s, ~ In (b_ "-data") l -> 1 <= j ->
  nth_error l (N.to_nat (j - 1)) = Some s -> ~ is_option s -> In j (others 1 l).
Proof. intros l j s H1 H2 H3 H4. exact (others_complete l 1 j s H1 H3 H2 H4). Qed.
Print Assumptions C44_nothing_lost.

Example C44_example :
  others 1 ([b_ "-f"; b_ "-data"; b_ "dir"; b_ "x"; b_ "-info"; b_ "y"; b_ "-data"]) = [1; 4; 6]
  /\ allArgs 20 (MkArgs 8 (Some ([b_ "prog"; b_ "-f"; b_ "-data"; b_ "dir"; b_ "x"; b_ "-info"; b_ "y"; b_ "-data"]))) = Val [1; 4; 6].
Proof. vm_compute. auto. Qed.

(** C44 is false for the largest number of arguments: the positions wrap around and the loop
    starts over for ever. *)
Theorem C44_wraps_around_refuted : exists l, len l = 65535 /\ forall fuel, allArgs fuel (MkArgs (len l) (Some l)) = Fuel.
Proof. exists many. split; [exact many_len|exact many_loops]. Qed.
Print Assumptions C44_wraps_around_refuted.

(** C57: getDebugMode finds the only -debug or -info option, and refuses more than one. *)
Theorem C57_debug_mode : forall p l,
  getDebugMode (MkArgs (len (p :: l)) (Some (p :: l))) =
  match filter is_mode l with
  | [] => Val NoDebug
  | [m] => Val (if beq m (b_ "-debug") then Full else Info)
  | _ => Throw DomainError
  end.
Proof. exact getDebugMode_spec. Qed.
Print Assumptions C57_debug_mode.
Example C57_example :
  getDebugMode (MkArgs 3 (Some ([b_ "prog"; b_ "a"; b_ "-info"]))) = Val Info
  /\ getDebugMode (MkArgs 3 (Some ([b_ "prog"; b_ "-debug"; b_ "-info"]))) = Throw DomainError.
Proof. vm_compute. auto. Qed.

(** C57, finding: the value of -data is taken for an option by getDebugMode although the
    argument loop treats it as the directory. *)
Theorem C57_data_value_refuted : exists l, others 1 l = []
  /\ l = [b_ "-data"; b_ "-debug"]
  /\ getDebugMode (MkArgs 3 (Some (b_ "prog" :: l))) = Val Full.
Proof. exists [b_ "-data"; b_ "-debug"]. split; [|split]; vm_compute; reflexivity. Qed.
Print Assumptions C57_data_value_refuted.

(** C58: arguments can only be made from a count and list that fit, the count converts from
    int exactly when it is in range, and reading beyond the count throws. *)
Theorem C58_construction : forall n v,
  newArgsInt n v =
  (if (n <? 0)%Z || (65535 <? n)%Z then Throw RangeError
   else match v with
        | None => if (n =? 0)%Z then Val (MkArgs 0 None) else Throw DomainError
        | Some l => if (n =? 0)%Z then Throw DomainError else Val (MkArgs (Z.to_N n) (Some l))
        end).
Proof.
  intros n v. unfold newArgsInt, checkInt. destruct (n <? 0)%Z eqn:E1; [reflexivity|]. cbn [orb].
  destruct (65535 <? n)%Z; [reflexivity|]. cbn [obind]. unfold newArgs.
  destruct (n =? 0)%Z eqn:E.
  - apply Z.eqb_eq in E. subst n. destruct v; reflexivity.
  - replace (Z.to_N n =? 0) with false; [destruct v; reflexivity|].
    symmetry. apply N.eqb_neq. apply Z.eqb_neq in E. apply Z.ltb_ge in E1. intro H. apply E. lia.
Qed.
Print Assumptions C58_construction.
Theorem C58_subscript : forall n l a i, newArgsInt n (Some l) = Val a -> (n = Z.of_nat (List.length l)) ->
  argAt a i = match nth_error l (N.to_nat i) with Some s => Val s | None => Throw RangeError end.
Proof.
  intros n l a i H ->. rewrite C58_construction in H.
  destruct ((Z.of_nat (List.length l) <? 0)%Z || (65535 <? Z.of_nat (List.length l))%Z); [discriminate|].
  destruct (Z.of_nat (List.length l) =? 0)%Z; [discriminate|]. inversion H; subst a. unfold argAt. cbn [argc argv].
  destruct (nth_error l (N.to_nat i)) as [s|] eqn:E.
  - assert (N.to_nat i < List.length l)%nat by (apply nth_error_Some; congruence).
    replace (Z.to_N (Z.of_nat (List.length l)) <=? i) with false by lia. reflexivity.
  - apply nth_error_None in E. replace (Z.to_N (Z.of_nat (List.length l)) <=? i) with true by lia. reflexivity.
Qed.
Print Assumptions C58_subscript.
Example C58_example :
  exists a, newArgsInt 2 (Some ([b_ "prog"; b_ "x"])) = Val a /\ argAt a 1 = Val (b_ "x")
  /\ argAt a 2 = Throw RangeError /\ newArgsInt 65536 (Some [b_ "x"]) = Throw RangeError.
Proof. eexists. split; [vm_compute; reflexivity|]. vm_compute. auto. Qed.
