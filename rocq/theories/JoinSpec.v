(** Texts joined with a separator. *)
From Verif Require Export Base.

Fixpoint separated (sep : bytes) (l : list bytes) : bytes :=
  match l with
  | [] => []
  | [x] => x
  | x :: r => x ++ sep ++ separated sep r
  end.

Lemma separated_snoc : forall sep l x, l <> [] -> separated sep (l ++ [x]) = separated sep l ++ sep ++ x.
Proof.
  intros sep l x. induction l as [|a l IH]; [congruence|]. intros _. destruct l as [|b l].
  - cbn [app separated]. reflexivity.
  - change (separated sep ((a :: b :: l) ++ [x])) with (a ++ sep ++ separated sep ((b :: l) ++ [x])).
    change (separated sep (a :: b :: l)) with (a ++ sep ++ separated sep (b :: l)).
    rewrite IH by discriminate. rewrite <- !app_assoc. reflexivity.
Qed.
