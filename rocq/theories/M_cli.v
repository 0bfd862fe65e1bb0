(** bit/cli.py: the command "bit gen" and the text it writes. *)
From Coq Require Import String.
From Verif Require Export M_keygen M_services.

(* repo: bit/keygen.py:31-36 the argument cores as a text, which the command line
   always gives *)
Definition cores_of_text (t : pystr) : cores_arg :=
  if list_eqb t (str "all") then AllCores
  else match int_of_text t with Ok n => SomeCores n | Raise _ => BadCores end.

(* repo: bit/keygen.py:59-61,64 what the search writes *)
Definition shown_text (e : event) : pystr :=
  match e with
  | Shown k => str "Keys generated: " ++ str_of_int k ++ [13]
  | Printed w a => [10; 10] ++ str "WIF: " ++ w ++ [10] ++ str "Address: " ++ a ++ [10]
  | _ => []
  end.
(** str() of a pair of texts without quotes, backslashes or unprintable characters. *)
Definition pair_text (w a : pystr) : pystr := str "('" ++ w ++ str "', '" ++ a ++ str "')".

(* repo: bit/cli.py:11-15 gen: what was written when the command ends, and the
   exception it ends with, if any; [available] is cpu_count().  click.echo writes
   str() of the result, nothing for None, and a newline.
   Simplified: what click itself says about missing arguments and unknown options
   is left out. *)
Inductive gen {CR : Crypto} (prefix cores : pystr) (available : Z) : pystr -> option exc -> Prop :=
| G_pair secret w a : NewSecret secret ->
    generate_matching_address prefix (cores_of_text cores) available secret = Ok (inl (w, a)) ->
    gen prefix cores available (pair_text w a ++ [10]) None
| G_search secret p n t st : NewSecret secret ->
    generate_matching_address prefix (cores_of_text cores) available secret = Ok (inr (p, n)) ->
    steps p (search n) t st -> main st = Finished ->
    gen prefix cores available (concat (map shown_text t) ++ [10]) None
| G_raise secret e : NewSecret secret ->
    generate_matching_address prefix (cores_of_text cores) available secret = Raise e ->
    gen prefix cores available [] (Some e).
