(** * Property C44: the global functions of fundu-gnu *)
From Verif Require Import Prelude Time DateTime Gnu SpecTime PropGnu.

(** the global functions do what the methods of [RelativeTimeParser::new()] do; without years and months the date does not matter to any of them, and
    without a date the current time is the date *)
Theorem C44_global_functions : forall now s date,
  gnu_global_parse_fuzzy s = gnu_parse_fuzzy gnu_new s /\
  gnu_global_parse_with_date now s date = gnu_parse_with_date gnu_new now s date /\
  gnu_global_parse now s = gnu_parse gnu_new now s /\
  gnu_global_parse now s = gnu_global_parse_with_date now s None /\
  (forall x, now_utc_with_system_time now = Ok x -> gnu_global_parse now s = gnu_global_parse_with_date now s (Some x)) /\
  (forall d, gnu_global_parse_fuzzy s = Ok (0, 0, d) -> gnu_global_parse_with_date now s date = Ok d /\ gnu_global_parse now s = Ok d) /\
  (forall e, gnu_global_parse_fuzzy s = Err e -> gnu_global_parse_with_date now s date = Err e /\ gnu_global_parse now s = Err e).
Proof.
  intros now s date.
  assert (E : gnu_parse gnu_new now s = gnu_parse_with_date gnu_new now s None) by reflexivity.
  split; [reflexivity|]. split; [reflexivity|]. split; [reflexivity|]. split; [exact E|]. split; [|split].
  - intros x Hx. destruct (C44_current_time gnu_new now s x Hx) as [A B]. unfold gnu_global_parse, gnu_global_parse_with_date. now rewrite B, A.
  - intros d H. destruct (C44_date_is_irrelevant gnu_new now s date) as [G _]. destruct (C44_date_is_irrelevant gnu_new now s None) as [G' _].
    split; [exact (G d H)|]. unfold gnu_global_parse. rewrite E. exact (G' d H).
  - intros e H. destruct (C44_date_is_irrelevant gnu_new now s date) as [_ G]. destruct (C44_date_is_irrelevant gnu_new now s None) as [_ G'].
    split; [exact (G e H)|]. unfold gnu_global_parse. rewrite E. exact (G' e H).
Qed.
Print Assumptions C44_global_functions.
Example C44_global_functions_example : gnu_global_parse_fuzzy (%"2 hours 3 years ago") = Ok (-3, 0, Dur false (Std 7200 0)) /\
  gnu_global_parse (inl (Std 0 0)) (%"month") = Ok (Dur false (Std 2678400 0)).
Proof. split; vm_compute; reflexivity. Qed.
