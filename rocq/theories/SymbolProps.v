(** Property C09: symbols. *)
From Verif Require Import BaseFacts SymbolModel SymbolProofs.

(** C09: after any history of constructions, every construction either gave a
    symbol whose name is the given one (id 0 iff the name is empty), now and after
    everything that followed, or threw DomainError because the 65534 names were
    used up; two symbols have the same id iff they have the same name; at most
    65534 names are held; and [exists] says exactly which names are held. *)
Theorem C09_symbols_are_a_stable_bijection : forall names os st,
  newSymbols noSymbols names = (os, st) ->
  List.length os = List.length names
  /\ (forall k name, nth_error names k = Some name ->
        match nth_error os k with
        | Some (Val i) => symName st i = Val name /\ (name = [] <-> i = 0)
                          /\ symExists st name = match name with [] => false | _ => true end
        | Some (Throw DomainError) => name <> [] /\ symSize st = 65534 /\ symExists st name = false
        | _ => False
        end)
  /\ (forall j k i1 i2 a b, nth_error names j = Some a -> nth_error names k = Some b ->
        nth_error os j = Some (Val i1) -> nth_error os k = Some (Val i2) -> (i1 = i2 <-> a = b))
  /\ symSize st <= 65534
  /\ (forall name, symExists st name = true -> In name names).
Proof. exact symbols_bijection. Qed.
Print Assumptions C09_symbols_are_a_stable_bijection.

(** a construction that throws changes nothing *)
Theorem C09_throw_changes_nothing : forall names os st name e st',
  newSymbols noSymbols names = (os, st) -> newSymbol st name = (Throw e, st') ->
  st' = st /\ e = DomainError.
Proof. exact throw_no_effect. Qed.
Print Assumptions C09_throw_changes_nothing.

(** the capacity is exactly 65534 distinct names *)
Theorem C09_capacity : forall names, NoDup names -> ~ In [] names ->
  (len names <= 65534 ->
     Forall (fun o => exists i, o = Val i) (fst (newSymbols noSymbols names))
     /\ symSize (snd (newSymbols noSymbols names)) = len names)
  /\ (len names = 65534 -> forall name, name <> [] -> ~ In name names ->
        newSymbol (snd (newSymbols noSymbols names)) name
        = (Throw DomainError, snd (newSymbols noSymbols names))).
Proof. exact capacity. Qed.
Print Assumptions C09_capacity.

Example C09_example :
  let r := newSymbols noSymbols [b_ "A"; b_ "B"; []; b_ "A"; b_ "C"] in
  fst r = [Val 1; Val 2; Val 0; Val 1; Val 3]
  /\ symName (snd r) 2 = Val (b_ "B") /\ symSize (snd r) = 3
  /\ symExists (snd r) (b_ "C") = true /\ symExists (snd r) (b_ "D") = false.
Proof. vm_compute. repeat split; reflexivity. Qed.
(** there are enough names to use up the capacity *)
Example C09_capacity_example : exists names : list bytes, NoDup names /\ ~ In [] names /\ len names = 65534.
Proof. exact enough_names. Qed.
