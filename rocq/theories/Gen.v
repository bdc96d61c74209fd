(** Gen.v - model of data/gen.go, the program that writes fallback.go ("go generate").  What the
    environment does is given by parameters: the answer to the request, whether the file can be
    created, the text of the current time, and how many bytes can be written before writing fails
    (its error is ignored by the program).  text/template is trusted to put texts in unchanged. *)

From Verif Require Import Base World.
Local Open Scope N_scope.

(** data/gen.go:24 *)
Definition gen_url : bytes := str "https://publicsuffix.org/list/public_suffix_list.dat".

(** data/gen.go:56-64 pslTemplate *)
Definition psl_template (timestamp url content : bytes) : bytes :=
  str "package fasttld" ++ [10; 10]
  ++ str "// Code generated by go generate; DO NOT EDIT." ++ [10]
  ++ str "// This file was generated by robots at" ++ [10]
  ++ str "// " ++ timestamp ++ [10]
  ++ str "// using data from" ++ [10]
  ++ str "// " ++ url ++ [10; 10]
  ++ str "const hardcodedPSL string = " ++ str "`" ++ content ++ str "`" ++ [10].

(** data/gen.go:23-48 main and 50-54 fail: the new contents of fallback.go, or None if the program
    ended before it created the file. *)
Definition gen_main (get : bytes -> response) (created : bool) (timestamp : bytes) (room : nat) : option bytes :=
  match get gen_url with
  | NoResponse => None
  | Response _ body complete =>
    if complete then
      if created then Some (firstn room (psl_template timestamp gen_url body)) else None
    else None
  end.
