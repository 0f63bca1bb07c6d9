(** motorola/motorola_utils.py, the two functions that give floats. *)
From Verif Require Import PyBase PyFloat MotorolaModel.
Open Scope list_scope.
Open Scope Z_scope.

(** motorola/motorola_utils.py:23-26 [ufloatvar_to_float]: the quotient first, then the int operand is
    converted to float, then the sum *)
Definition ufloatvar_to_float (int_part fraction_part : list Z) : res pyfloat :=
    rbind (true_divide (uintvar_to_int fraction_part) (128 ^ Z.of_nat (List.length fraction_part))) (fun f =>
    rbind (float_of_int (uintvar_to_int int_part)) (fun i => Ok (float_add i f))).

(** motorola/motorola_utils.py:29-34 [sfloatvar_to_float]; [sint_part[0]] of an empty list (IndexError) is
    not modelled: payloads of parsed objects are never empty *)
Definition sfloatvar_to_float (sint_part fraction_part : list Z) : res pyfloat :=
    rbind (true_divide (uintvar_to_int fraction_part) (128 ^ Z.of_nat (List.length fraction_part))) (fun f =>
    rbind (float_of_int (clear_msb (uintvar_to_int sint_part))) (fun i =>
    let out := float_add i f in
    let is_negative := 0 <? Z.land (hd 0 sint_part) 0x40 in
    Ok (if is_negative then float_neg out else out))).
