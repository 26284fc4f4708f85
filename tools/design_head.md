# Design of the fn-log formal model

The model is a set of total, computable Gallina functions transcribed from the
headers in `/repo/src/include`, function by function.  Every definition cites the
file and lines it models and says where it is simplified.  Theorems are stated
against small specifications (`*Spec.v`) that do not use the model's helpers.

This file is generated by `tools/mkdesign.py` from `tools/design_head.md`,
`tools/design_how.py`, `properties.jsonl` and `MANIFEST.json`.

## Conventions

* Integers are `Z`.  C++ fixed-width effects (wrap-around of unsigned types,
  truncating casts, table indices, shifts) are written out where they occur.
* Undefined behaviour (signed overflow, over-wide shift, `clz(0)`, access outside
  an array, null pointer) is the separate outcome `Ub`.  Every theorem that says a
  function returns also says that it does not reach `Ub`.
* A loop that may not end runs on fuel and yields the separate outcome `Fuel`.
  Termination claims are "some fuel suffices" (and more fuel gives the same
  result); non-termination claims are "out of fuel for every fuel".
* Bytes are `Z` in 0..255, buffers are lists of bytes of a fixed length.
* Concurrency is a labelled transition system in which one atomic operation of the
  source is one step, under sequential consistency; schedules are lists of steps
  of any length, for any number of threads and any ring size.
* `LOG_SIZE`, `BUFFER_LEN`, the maxima of channels and devices and the contents of
  the operating system (clock, files, sockets, threads) are parameters that the
  theorems quantify over.
* Names: `Cxx_...` is proved in full; `..._partial` is proved with a gap that the
  note states; `..._refuted` shows by a witness that the natural statement is
  false of the code.  A property is "proved" if its statement, with the conditions
  written in it, is proved; it is "partial" if a part of the statement is false of
  the code (then there is a witness) or missing.
* Each property theorem stands in a `Props*.v` file, is followed by
  `Print Assumptions`, and has an `Example` beside it in which its hypotheses hold
  in a concrete, non-trivial case.
* Examples and witnesses are tests or refutations; no theorem is a bounded check.

