#!/bin/sh
# Extract the slow tests of rocq/theories/Vectors.v to OCaml and run them (needs a built rocq/ tree).
set -e
theories="$(cd "$(dirname "$0")/../rocq/theories" && pwd)"
dir=$(mktemp -d)
cd "$dir"
cat > Run.v <<'END'
Require Extraction.
Require Import ExtrOcamlBasic ExtrOcamlNativeString.
From Verif Require Vectors.
Extraction "model.ml" Vectors.slow_tests.
END
coqc -Q "$theories" Verif Run.v > coq.log 2>&1 || { tail coq.log; exit 1; }
cat > main.ml <<'END'
let () =
  let bad = ref 0 in
  List.iter (fun (name, test) ->
    let ok = test () in
    if not ok then incr bad;
    Printf.printf "%s %s\n%!" (if ok then "ok  " else "FAIL") name) Model.slow_tests;
  exit (if !bad = 0 then 0 else 1)
END
ocamlfind ocamlopt -O3 -w -a model.mli model.ml main.ml -o tests 2>/dev/null || ocamlfind ocamlopt -w -a model.mli model.ml main.ml -o tests
./tests
