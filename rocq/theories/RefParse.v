(** * A reference parser on plain texts (no scanner, no buffer, no positions): it stands between the model and the
    grammar. Internal to the proofs. *)
From Verif Require Import Prelude Time Config SpecTime SpecNum SpecValue SpecGrammar Repr BytesProofs.

Section Ref.
Context (c : config) (tu : units_like) (kw : option units_like) (nums : option numbers_like).
Notation inner := (c_inner_delimiter c).
Notation outer := (c_outer_delimiter c).
Notation um := (time_unit * multiplier)%type.

Definition nonempty (l : str) : option str := match l with [] => None | _ => Some l end.

Definition f_signed (l : str) : option (bool * str) :=
  match l with
  | [] => None
  | x :: l' =>
      if is_sign x then
        let? r := nonempty (if c_allow_sign_delimiter c then drop_while inner l' else l') in
        Some (x =? 45, r)
      else Some (false, l)
  end.

Definition f_fraction (l : str) : option (str * str) :=
  match l with
  | x :: l' =>
      if is_dot x then if c_disable_fraction c then None else Some (take_while is_digit l', drop_while is_digit l')
      else Some ([], l)
  | [] => Some ([], [])
  end.

Definition f_exponent_digits (n : bool) (l : str) : option (Z * str) :=
  let ds := take_while is_digit l in
  match ds with
  | [] => None
  | _ => let e := if n then - dval ds else dval ds in
         if is_i16 e then Some (e, drop_while is_digit l) else None
  end.
Definition f_exponent (l : str) : option (Z * str) :=
  match l with
  | x :: l' =>
      if is_e x then
        if c_disable_exponent c then None
        else match l' with
             | y :: l'' => if y =? 43 then f_exponent_digits false l''
                           else if y =? 45 then f_exponent_digits true l''
                           else f_exponent_digits false l'
             | [] => None
             end
      else Some (0, l)
  | [] => Some (0, [])
  end.

Definition f_unit_delimiter (l : str) : option str :=
  match l with
  | x :: l' => if c_allow_time_unit_delimiter c && inner x then nonempty (drop_while inner l') else Some l
  | [] => Some []
  end.

(** what differs between single and multiple durations. The double option: None is an error, Some None is "no". *)
Record rtemplate := RTemplate {
  rt_inf : bool -> str -> option (duration * str);
  rt_kw : str -> option (option (um * str));
  rt_tu : str -> option (option (um * str));
  rt_ntu : str -> option (option um * str);
  rt_fin : duration -> str -> option (duration * str)
}.
Context (T : rtemplate).

Definition f_number (n : bool) (W l : str) : option (duration * str) :=
  let? (F, l) := f_fraction l in
  if is_empty (W ++ F) then None else
  let? (x, l) := f_exponent l in
  let? l := f_unit_delimiter l in
  match l with
  | [] => Some (number_value n W F x (c_default_unit c) default_multiplier, [])
  | _ => let? (o, l) := rt_ntu T l in
         match o with
         | Some (u, m) => rt_fin T (number_value n W F x u m) l
         | None => rt_fin T (number_value n W F x (c_default_unit c) default_multiplier) l
         end
  end.

Definition f_numeral_prefix (l : str) : option (option (multiplier * str)) :=
  match nums with
  | None => Some None
  | Some f =>
      let w := take_while (fun x => negb (inner x)) l in
      let r := drop_while (fun x => negb (inner x)) l in
      match w with
      | [] => Some None
      | _ => match f w with
             | None => Some None
             | Some m => match r with
                         | [] => Some None
                         | _ => let? r := nonempty (drop_while inner r) in Some (Some (m, r))
                         end
             end
      end
  end.

Definition f_numeral (n : bool) (l : str) : option (duration * str) :=
  let? o := f_numeral_prefix l in
  match o with
  | None => None
  | Some (num, l) =>
      let? o := rt_tu T l in
      match o with
      | None => None
      | Some ((u, m), l) => rt_fin T (numeral_value n num u m) l
      end
  end.

Definition f_word (n : bool) (l : str) : option (duration * str) :=
  let? o := rt_kw T l in
  match o with
  | Some ((u, m), l) => rt_fin T (unit_value n u m) l
  | None =>
      if c_number_is_optional c then
        let? o := rt_tu T l in
        match o with
        | Some ((u, m), l) => rt_fin T (unit_value n u m) l
        | None => f_numeral n l
        end
      else f_numeral n l
  end.

Definition f_template (s : str) : option (duration * str) :=
  let? (n, l) := f_signed s in
  match l with
  | [] => None
  | x :: _ =>
      if is_digit x then f_number n (take_while is_digit l) (drop_while is_digit l)
      else if is_dot x then f_number n [] l
      else if negb (c_disable_infinity c) && starts_nocase (%"inf") l then rt_inf T n (skipn 3 l)
      else f_word n l
  end.
End Ref.

Section Single.
Context (c : config) (tu : units_like) (kw : option units_like) (nums : option numbers_like).
Notation inner := (c_inner_delimiter c).
Notation um := (time_unit * multiplier)%type.

(** [l] is what follows "inf" *)
Definition fs_inf (n : bool) (l : str) : option (duration * str) :=
  if is_empty l || str_eq_nocase l (%"inity") then Some (infinity_value n, []) else None.
Definition fs_kw (l : str) : option (option (um * str)) :=
  match kw with
  | None => Some None
  | Some k => match u_get k l with Some um => Some (Some (um, [])) | None => Some None end
  end.
Definition fs_tu (l : str) : option (option (um * str)) :=
  if c_allow_ago c then
    let w := take_while (fun x => negb (inner x)) l in
    let r := drop_while (fun x => negb (inner x)) l in
    match w with
    | [] => Some None
    | _ => match u_get tu w with
           | None => Some None
           | Some (u, m) =>
               match r with
               | [] => Some (Some ((u, m), []))
               | _ => let? a := nonempty (drop_while inner r) in
                      if starts_nocase (%"ago") a then Some (Some ((u, mul_saturating_neg m), skipn 3 a))
                      else Some None
               end
           end
    end
  else match u_get tu l with Some um => Some (Some (um, [])) | None => Some None end.
Definition fs_ntu (l : str) : option (option um * str) :=
  if u_is_empty tu then None
  else let? o := fs_tu l in match o with Some (um, r) => Some (Some um, r) | None => None end.
Definition fs_fin (d : duration) (l : str) : option (duration * str) :=
  match l with [] => Some (d, []) | _ => None end.
Definition rsingle : rtemplate := RTemplate fs_inf fs_kw fs_tu fs_ntu fs_fin.
End Single.

Section Multi.
Context (c : config) (tu : units_like) (kw : option units_like) (nums : option numbers_like).
Notation inner := (c_inner_delimiter c).
Notation outer := (c_outer_delimiter c).
Notation um := (time_unit * multiplier)%type.

Fixpoint f_conjunction (ws : list str) (l : str) : option str :=
  match ws with
  | [] => Some l
  | w :: ws' =>
      if starts_nocase w l then
        match skipn (length w) l with
        | [] => None
        | x :: z => if outer x then nonempty (drop_while outer z)
                    else if starts_duration x then Some (x :: z) else None
        end
      else f_conjunction ws' l
  end.
Definition f_connect (l : str) : option str :=
  let? r := nonempty (drop_while outer l) in f_conjunction (conjunctions c) r.
Definition f_next (l : str) : option str :=
  match l with [] => Some [] | x :: _ => if outer x then f_connect l else Some l end.

Definition fm_fin (d : duration) (l : str) : option (duration * str) := let? l := f_next l in Some (d, l).
Definition f_ends (l : str) : bool := match l with [] => true | x :: _ => outer x end.
Definition fm_inf (n : bool) (l : str) : option (duration * str) :=
  if f_ends l then fm_fin (infinity_value n) l
  else if starts_nocase (%"inity") l && f_ends (skipn 5 l) then fm_fin (infinity_value n) (skipn 5 l)
  else None.
Definition fm_kw (l : str) : option (option (um * str)) :=
  match kw with
  | None => Some None
  | Some k =>
      match take_while (fun x => negb (keyword_end c x)) l with
      | [] => Some None
      | w => match u_get k w with
             | None => Some None
             | Some um => let? r := f_next (drop_while (fun x => negb (keyword_end c x)) l) in Some (Some (um, r))
             end
      end
  end.
Definition f_ago (m : multiplier) (l : str) : option (multiplier * str) :=
  match l with
  | [] => Some (m, l)
  | x :: _ =>
      if c_allow_ago c && inner x then
        let? a := nonempty (drop_while inner l) in
        if starts_nocase (%"ago") a then
          match skipn 3 a with
          | [] => Some (mul_saturating_neg m, [])
          | y :: r => if keyword_end c y then Some (mul_saturating_neg m, y :: r) else Some (m, l)
          end
        else Some (m, l)
      else Some (m, l)
  end.
Definition fm_tu (l : str) : option (option (um * str)) :=
  match take_while (fun x => negb (unit_end c x)) l with
  | [] => Some None
  | w => match u_get tu w with
         | None => Some None
         | Some (u, m) =>
             let? (m, r) := f_ago m (drop_while (fun x => negb (unit_end c x)) l) in
             let? r := f_next r in
             Some (Some ((u, m), r))
         end
  end.
Definition fm_ntu (l : str) : option (option um * str) :=
  if u_is_empty tu then Some (None, l)
  else let? o := fm_tu l in match o with Some (um, r) => Some (Some um, r) | None => Some (None, l) end.
Definition rmulti : rtemplate := RTemplate fm_inf fm_kw fm_tu fm_ntu fm_fin.
End Multi.
