(* Parsed JSON values, as delivered by nlohmann::json (topology file) and simdjson (workloads and traces).
   The text format and the parsers are not modelled. An object is a list of fields with distinct keys. *)
From Coq Require Import ZArith String List Bool Floats.SpecFloat.
From Verif Require Import Base Arith.
Import ListNotations.
Local Open Scope string_scope.
Local Open Scope list_scope.
Open Scope Z_scope.

Inductive json : Type :=
| JNull : json
| JBool : bool -> json
| JInt : Z -> json                  (* between -2^63 and 2^64 - 1 *)
| JDouble : spec_float -> json      (* binary64, finite *)
| JString : string -> json
| JArray : list json -> json
| JObject : list (string * json) -> json.

(* j[key] of an object *)
Fixpoint field (fs : list (string * json)) (k : string) : option json :=
  match fs with
  | [] => None
  | (k', v) :: fs' => if String.eqb k' k then Some v else field fs' k
  end.
Definition get_field (j : json) (k : string) : option json :=
  match j with JObject fs => field fs k | _ => None end.
(* nlohmann get<int>(): numbers and booleans are converted, other types throw type_error *)
Definition get_int (j : json) : outcome Z :=
  match j with
  | JBool b => Ok (if b then 1 else 0)
  | JInt z => Ok (i32 z)
  | JDouble x => match sf_trunc x with
                 | Some z => if (- 2 ^ 31 <=? z) && (z <? 2 ^ 31) then Ok z else UB "float to integer"
                 | None => UB "float to integer"
                 end
  | _ => StdThrow "nlohmann type_error"
  end.
