(** Tactics for the concrete cases beside the property theorems. *)
From Verif Require Import PyBase PyNum PyVal Utf8 Tools DsNodes DsHeaders Uff Facts Lines Stored Cells Rows.
From Coq Require Import Lia.

(** A fixed clock and float literals. *)
Definition noclock : clock := {| now_date := lit "01-Jan-24"; now_time := lit "00:00:00" |}.
Definition fl (s : string) : float := match py_float (lit s) with Ok f => f | Err _ => f_zero end.
Definition fv (s : string) : pyval := VFloat (fl s).

Ltac wit_seq := eexists; split; [vm_compute; reflexivity|]; repeat (constructor; [try (vm_compute; reflexivity)|]); try constructor.
Ltac wit_has := eexists; split; [vm_compute; reflexivity|]; match goal with |- seq_of _ _ _ => wit_seq | _ => vm_compute; reflexivity end.
Ltac wit_text := split; [apply plain_ascii; vm_compute; reflexivity|vm_compute; reflexivity].
Ltac wit_fits := split; vm_compute; reflexivity.
Ltac wit1 :=
  first [ match goal with |- has_or _ _ _ _ _ => first [left; solve [wit_has]|right; split; vm_compute; reflexivity] end
        | match goal with |- has _ _ _ _ => wit_has end
        | match goal with |- fits _ _ => wit_fits end
        | match goal with |- text_ok _ => wit_text end
        | match goal with |- _ <> _ => discriminate end
        | match goal with |- Forall _ [] => constructor end
        | match goal with |- Forall _ _ => constructor end
        | match goal with |- _ /\ _ => split end
        | match goal with |- _ = _ => vm_compute; reflexivity end ].
Ltac wit := repeat wit1.
