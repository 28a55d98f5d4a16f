# Formal model of essay-tensor: design

The subject is the Rust crate in `/repo` (`src/` and `crates/essay-opt`). It is read
as text; nothing is compiled or run. The model and proofs are in `rocq/theories`
(Coq 8.16.1). `properties.jsonl` states the properties in API terms, `MANIFEST.json`
maps them to theorems, `seeded/LOG.jsonl` records the seeded-bug experiments.

## 1. How Rust is represented

* **Outcomes.** Every modelled function returns `outcome A` = `Ok a`, `Panic` or `Ub`.
  `Panic` is a Rust panic (assertion, index out of bounds, arithmetic overflow with
  overflow checks, division by zero, `todo!()`). `Ub` is a step on which safe Rust
  would be undefined: a raw-pointer access outside the allocation, an element left
  uninitialised by `unsafe_init`, a zero-size allocation when the allocator does not
  tolerate it.
* **Build configuration.** `cfg` has two booleans: `overflow_checks` (debug profile:
  overflow panics; release profile: wraps) and `zero_alloc_ok` (whether the global
  allocator returns a usable pointer for a zero-size request; Rust's contract does
  not promise it). Theorems quantify over every `cfg` unless they say otherwise.
* **Integers.** `usize`, `u32` values are `nat`; `isize` values are `Z`. Casts to `u32`
  truncate explicitly (`as_u32`). Additions, subtractions and multiplications whose
  operands are chosen by the caller go through `uadd`/`usub`/`umul`, which check or wrap
  at 64 bits as configured; the products of dimensions go through the 32-bit version.
  Loop counters and element positions inside loops are plain `nat`: they are bounded by
  an allocation length, which is below 2^63.
* **Memory.** A tensor is a record of shape, offset, size and the buffer it points into,
  the buffer being a list. Sharing is by value, since buffers are immutable once built
  (the sharing itself and deallocation are the subject of a separate reference-count
  model). `unsafe_init` runs its initialiser on a buffer of `option` cells; a write
  outside is `Ub`, and an uninitialised cell at the end is `Ub`.
* **Closures.** `FnMut` arguments are state-passing functions `S -> args -> outcome (S * r)`:
  the order and number of calls is observable and a closure may panic.
* **Floats.** Functions on `f32` are modelled over a record of operations and
  instantiated with the reals (exact arithmetic) and, where rounding is the subject,
  with Flocq's IEEE binary32.

## 2. Specification vocabulary (`Spec.v`)

Properties are stated with a few notions that do not mention the model: `prod` of a
dimension list, `ravel` (row-major position of a coordinate), `in_shape` (coordinate in
range) and `repr t ds xs` ("tensor `t` has dimension list `ds` and row-major elements
`xs`", the only bridge to the model).

## 3. Per-property plan

| id | how |
|---|---|
| C01-C10 | shape model (`ShapeModel`), lemmas relating the reversed six-slot storage to the dimension list; the false claims get `_refuted` theorems with a witness |
| C11-C21 | tensor model (`TensorModel`), views as offset/size into the buffer list |
| C22, C23 | invariant over histories of calls of the tensor model; zero-length allocation as a refutation |
| C24-C33 | `MapModel`: loops as in the source, stateful closures |
| C34-C40 | `ArrayModel`: loops as in the source; permutation-of-writes lemma gives full initialisation and per-coordinate contents |
| C41-C45 | `InitModel` |
| C46-C49 | `LinalgModel`: the naive sgemm exactly; other kernels are C82 |
| C50-C54 | `StatsModel` over reals, binary32 where rounding matters |
| C55-C58 | `RandomModel`: the generators over N modulo 2^64 and 2^128; the seeding loop as an interleaving transition system |
| C59, C60 | byte-level decoder; reads with an arbitrary OS short-read oracle |
| C61, C65 | `SignalModel`: the FFT itself (external crate) is an oracle, shapes and row handling are modelled |
| C62 | reference-count transition system, invariant over histories |
| C63 | builder as field updates |
| C64 | formatter as a string function |
| C66, C67 | `FromModel`, `ArgModel`: conversions of nested vectors and arrays, argument lists of the join functions |
| C71 | all functions that take the build configuration, composed freely (`ProfileSpec.program`) |
| C74, C75 | `init/mod.rs`, accessors and forwarding methods (`WrapModel`) |
| C72, C73 | laws of element operations lifted through the operators of C24-C31 and the products of C46; operands given by their entries |
| C76 | 156 model definitions run on two element types at once (`ParamSpec` relations: same kind of outcome, same shape, related elements) |
| C77 | functions that nothing calls (`UnusedModel`) |
| C78 | tensors with the same shape and elements in different buffers (`ViewSpec`: `same`, `copy`) |
| C79 | where parts meet (`ComposeSpec`: `joints`) |
| C80 | the functions of C43, C51 and C52 in binary32: monotonicity of rounding, error bounds |
| C81 | the relations of C76 restricted to equal elements with a property (`InvarSpec`: `tall`, `okall`) |
| C82 | `KernelModel`: `matmul_t` and `matvec_t` with the kernel as a parameter; `KernelSpec`: the contract of a kernel, and what a binary32 sum of products may be |
| C83 | the variances and deviations of C50 in binary32: error bounds |
| C84 | the sums, products, means, operators and matrix products of C28, C46-C51 on integers in binary32: exact |
| C68-C70 | the functions of C46, C50, C51 in Flocq's binary32, with error bounds against the reals |

Each topic has three files besides the model: `XSpec.v` (notions used in statements), `XProofs.v`
(the proofs) and `PropsX.v` (the statements, each closed by the lemma of the same name in lower
case, and examples). `*Facts.v` files hold lemmas about the models.

## 4. Trusted base

**Coq's kernel**, version 8.16.1, including its `vm_compute` reduction machine. No native
compilation, no plugins, no kernel check switched off.

**Axioms.** Each property theorem stands in a `Props*.v` file with `Print Assumptions` below
it, so the build log shows the list for each. There are three cases:

* All theorems not named below: "Closed under the global context" (no axioms).
* `ClassicalDedekindReals.sig_forall_dec` and
  `FunctionalExtensionality.functional_extensionality_dep` (both from Coq's standard library,
  used by its construction of the real numbers):
  `C43_faithful_exact` `C50_variance_nonneg` `C51_axis_total` `C51_product` `C51_product_axis`
  `C51_sum` `C51_sum_axis` `C56_faithful_nearest` `C68_gamma` `C74_sum`
* Those two, `ClassicalDedekindReals.sig_not_dec` and `Classical_Prop.classic` (all from Coq's
  standard library; the theorems are about the reals or use Flocq's binary32):
  `C42_mgrid_b32` `C42_mgrid_real` `C43_geomspace_real` `C43_geomspace_scalar`
  `C43_linspace_b32_refuted` `C43_linspace_first_b32` `C43_linspace_int_b32` `C43_linspace_one`
  `C43_linspace_real` `C43_logspace_int_b32` `C43_logspace_real` `C44_arange_b32`
  `C44_arange_b32_refuted` `C44_arange_b32_terminates` `C44_arange_count_refuted`
  `C44_arange_direction` `C44_arange_int_b32` `C44_arange_real` `C44_arange_refuted`
  `C44_arange_stuck_refuted` `C46_matmul_b32` `C46_matmul_real` `C50_axis_none` `C50_empty`
  `C50_mean` `C50_mean_axis` `C50_std` `C50_std_axis` `C50_variance` `C50_variance_axis`
  `C51_hypot` `C51_hypot_b32_overflow` `C51_max` `C51_max_axis` `C51_min` `C51_min_axis`
  `C52_constant_b32` `C52_normalize_unit` `C52_overflow_b32` `C52_unit_interval` `C53_bins_b32`
  `C53_edges_b32_refuted` `C53_floor_b32` `C53_histogram` `C53_histogram_b32`
  `C53_overflow_b32_refuted` `C56_constants` `C56_normal_faithful` `C56_normal_infinite`
  `C56_normal_number_iff` `C56_rand32_normal_range` `C56_rand32_uniform`
  `C56_rand32_uniform_ends` `C56_rand32_uniform_value` `C56_rand64_normal_draws`
  `C56_rand64_normal_nan` `C56_rand64_normal_value` `C56_rand64_uniform_actual`
  `C56_rand64_uniform_b64` `C56_rand64_uniform_refuted` `C56_random_uniform_refuted`
  `C57_normal_faithful` `C57_random_normal_finite` `C57_random_uniform_finite` `C59_sample_b32`
  `C61_dft` `C68_matmul` `C68_matvec` `C68_mean` `C68_mean_axis` `C68_mean_range_refuted`
  `C68_sum` `C68_sum_axis` `C68_sum_exact` `C69_axis` `C69_refuted` `C69_std` `C69_variance`
  `C70_max` `C70_max_axis` `C70_min` `C70_min_axis` `C73_b32_refuted` `C73_mul_comm_b32`
  `C73_semirings` `C74_count_b32` `C76_matmul_int` `C80_geomspace_batch` `C80_geomspace_error`
  `C80_geomspace_zero` `C80_geomspace_zero_batch` `C80_hypot` `C80_linspace_end_refuted`
  `C80_linspace_error` `C80_linspace_order` `C80_logspace_error` `C80_product`
  `C80_product_axis` `C80_unit_error` `C80_unit_interval` `C80_unit_order_refuted` `C82_error`
  `C82_exact` `C82_fma` `C82_matmul_error` `C82_matmul_exact` `C82_matvec_error` `C82_naive`
  `C82_transpose_a_error` `C82_transpose_ab_error` `C82_transpose_b_error` `C83_axis`
  `C83_relative_refuted` `C83_std` `C83_variance` `C84_elementwise` `C84_matvec`
  `C84_matvec_transpose` `C84_mean` `C84_mean_axis` `C84_product` `C84_product_axis` `C84_sum`
  `C84_sum_axis` `C84_transpose_a` `C84_transpose_ab` `C84_transpose_b`

Flocq, Coquelicot and the other libraries contribute definitions and lemmas but no axioms of
their own. `coqchk -o` also lists axioms of libraries that are loaded and not used
(`ssrunder`, the primitives behind `Reals`).

**The reading of the source.** The theorems are about the model. The only link to the Rust
text is the citation on each definition and the comparison made by reading. Two checks
reduce the risk: the repository's unit tests evaluated on the model (section 5), and the
seeded faults (`seeded/LOG.jsonl`), which check that a proof fails when the model is
changed. There, `theorems_failed` lists the theorems whose proof depends on a lemma that no
longer compiles after the edit. That is evidence, not proof, that their statements became
false: a proof may also fail for its form. `examples_failed` lists evaluations whose result
did change.

**External code taken as given:** `matrixmultiply::sgemm` (the theorems C46
to C49 and C68 use the crate's own `sgemm_naive` in its place; C82 asks of it only the contract
`computes ... sum_of` of `KernelSpec`: right addresses, and sums of rounded or fused products in
any order), the FFT of `rustfft` (an oracle that maps a list to a
list), the element functions of std, `num_traits` and `num_complex` (arbitrary functions; where
a theorem needs more of `ln`, `exp`, `cos` or `powf` it assumes a range, or that each result is
one of the two numbers next to the real value: `faithful` of `NormalSpec`), the `Arc` protocol, the
operating system's file functions (an oracle for length and transferred bytes), and the
parsing done by `syn` in `essay-opt` (the model starts from the parsed fields).

## 5. The repository's own unit tests (`UpstreamTests.v`)

214 of the 232 `#[test]` functions of `/repo/src` are transcribed, one definition each, and
evaluated on the model. This is a check of the model against the authors' expectations,
not a proof of anything about all inputs. Limits of this check:

* The bodies are transcribed by hand and were afterwards compared with the source by
  reading both, assertion by assertion. Only the line numbers are computed by a script. The
  script cannot notice a wrong operand or a missing assertion.
* The Rust tests were not run. "Fails" below is what the model says of the source text.
* Test element types, and floats where no float arithmetic is tested, are represented by
  `Z`. Two tests use 25 for 0.25 and 105 for 10.5.
* Assertions that differ only in the element type, or in passing an operand by reference,
  appear once. Assertions on `iter()`, which is the iterator of `as_slice()`, are covered by
  the assertion on the slice.
* Left out inside transcribed tests: the halves of the two `clone_drop` tests that clone a
  `Vec`, the half of `unsafe_init_dead` that assigns through the pointer, the drops of the
  source array in `data_drop_from_slice`, and the reads through `as_ptr` in
  `test_vec_align`.

179 pass, including the generator's known-answer tests. 35 do not:

* `ten!` always gives rank at least 1 and extra brackets add an axis, so that the two sides, or the data and the
  function's rank requirement, disagree: `test_flatten`, `test_reshape`, `test_squeeze`,
  `test_squeeze_axis` (also finding C10), `tensor_from_vec_slice`, `tensor_init_zero`,
  `tensor_init_count`, `tensor_fill`, `tensor_zeros`, `tensor_map_i32_to_f32`,
  `slice_usize_usize`, `slice_with_broadcast`, `histogram_default`, `histogram_bins`,
  `histogram2d_bins_2`.
* They expect `reduce` and `fold` without an axis to give shape `[1]` or to work per row;
  the code gives a scalar: `fold_i32`, `fold_axis`, `reduce_shape`, `reduce_fnmut`,
  `reduce_with_clone`, `tensor_fold_i32`, `tensor_reduce` (all in `tensor/test/map.rs`).
* `todo!()` is reached: `map2_row`, `index_rank_1_slice`, `slice_usize`,
  `slice_usize_rank1`, `test_frame_2_2`, `test_frame_3_2`.
* The expectation contradicts itself or other tests: `shape_from_slice` (rank of `[]`),
  `unsafe_init_scalar` (size 2 for one element), `drop_tensor` (two drops of one value),
  `reduce_mean_axis` (axis -1 and axis 0 of a rank 1 tensor differ).
* They expect the text of a derived `Debug`, the code prints the dimensions: `shape_debug`
  (twice).
* A defect of the code: `matmul_1_2_2_3_transpose`. The result's rows and columns are
  exchanged (`matmul.rs:57`, finding C47). Every other matmul test has a square result.

18 are not transcribed: they need the FFT (`rfft.rs`, 3), library functions of floats
(`sin_cos`, `logspace` 2, `geomspace`), the process-wide seed (`rand32_uniform`,
`rand32_normal`, `rand32_new`, `init/random.rs` 6) or files (`test_wav`, `test_read_file`).

## 6. What is modelled and what is not

| file | modelled in | left out |
|---|---|---|
| `tensor/shape.rs` | `ShapeModel`, `WrapModel` (and the `Tensor` methods in `TensorModel`) | |
| `tensor/axis.rs` | `AxisModel`, `WrapModel` | |
| `tensor/tensor.rs`, `data.rs` | `TensorModel`, `FmtModel`, `LifeModel`, `WrapModel` | the marker trait `Type` |
| `tensor/from.rs` | `TensorModel`, `FromModel` | by-reference variants with the same body |
| `tensor/index.rs`, `slice.rs` | `TensorModel`, `FmtModel`, `SignalModel` | |
| `tensor/map.rs` | `MapModel`, `UnusedModel` (`_map2_row`) | `into_result`, which is the parameter `into` |
| `array/*.rs` | `ArrayModel`, `ArgModel` | |
| `init/*.rs` | `InitModel`, `RandomModel`, `WrapModel` | |
| `linalg/*.rs` | `LinalgModel`, `KernelModel` | the external kernel (section 4) |
| `math/*.rs` | `NumModel`, `MathModel`, `FloatModel`, `WrapModel` | the element functions (`sin`, `rotate_left`, ...), which are parameters |
| `stats/*.rs` | `MathModel` | |
| `random/random.rs` | `RandomModel`, `Rand64Model` | `rand::thread_rng()` as the source of the first seed (any value) |
| `signal/*.rs` | `SignalModel` | the FFT itself |
| `io/*.rs` | `IoModel`, `UnusedModel` (`_read_u16`, `_read_slice`) | reading a path; the operating system is an oracle |
| `macros/mod.rs` | the array conversions it expands to | macro expansion |
| `crates/essay-opt` | `OptModel` | the token-level code generation |
| `test/*.rs` | `UpstreamTests` | see section 5 |

Behaviour outside the model, for all of the above:

* Failure of the allocator. `unsafe_init` (`data.rs:82-98`) does not test the returned pointer
  for null, so in the code an allocation failure is undefined behaviour.
* Element types of size zero. `Type` is a public trait, so such types are possible; every
  `unsafe_init` for them is then a zero-size request like those of C23.
* Rust's aliasing rules. `unsafe_init` passes `data.cast::<T>().as_mut()`, a reference to one
  uninitialised element, and the initialisers write beyond that element through it.
* Panics inside `Drop` or `Clone` of elements, and stack overflow (`tile_rec` recurses once
  per dimension only, except for a scalar with no multiples in release builds: C40_tile_nothing).
* Time. `arange` is given fuel, and its theorems say when no amount is enough.
* Memory ordering beyond sequential consistency. The seed's atomics use one location; the
  `Arc` is taken as correct.
* The sign of a zero that is the minimum or maximum of zeros of different signs. Rust leaves
  it open; the model takes the first operand. Theorems about extremes compare values, not signs.
* Type inference and conversion by `Into`: the model's functions take converted arguments.

## 7. Findings

Each line is a difference between what the property says and what the code does. The
theorem names end in `_refuted` where the property's own claim is false, and the exact
behaviour is in the `_actual`, `_exact` or otherwise named theorems of the same property.

Shapes

* C01: dimensions of 2^32 and more are truncated silently (`shape.rs`, `as u32`).
* C02: `with_cols` and `reduce` on a scalar shape, `rinsert` beyond the rank and `append` leave values in unused slots, which `==` compares.
* C04: inserting the outermost axis into a rank-5 shape panics although the result has rank six. Rank-5 tensors cannot be stacked (C38) and rank-6 tensors cannot be concatenated along axis 0 (C35).
* C06: `squeeze(Some(axis))` looks at dimension `axis - 1`; axis 0 is never removed.
* C07: `Shape::append` stores the tail reversed and adds six to the rank; using the result panics.
* C09: `batch_len` multiplies the inner dimensions instead of the outer ones.
* C10: in release builds the size wraps modulo 2^32: `zeros([65536, 65536])` owns no element.

Tensors

* C13: `subslice` panics when an inner dimension is zero.
* C14: in release builds `offset + len` may wrap, and `subslice` then accepts it.
  The view accepted still shows elements of the parent only (`C14_inside`).
* C15, C18, C32, C64: `get`, `as_wrap_slice_n`, `fold_row` and `Debug` count a view's offset twice. The results are wrong elements, reads outside the buffer (C15, C64) or panics (C18, C32).
* C16: indexing with three and four coordinates checks the size where it means the rank, so that every lookup on tensors of at most two (three) elements panics.
  The panic message of `t[(i, j)]` shows the tensor with `Debug`. On a view an index out of range therefore reads outside the buffer (`C16_index2_refuted`) unless the view lies in its first half.
  In release builds the offset of an index may wrap around. A tensor whose size has wrapped around then shows an element where it has none (`C16_wrap_refuted`).
* C20: `append` compares only the row sizes. It joins `[1,6]` with `[1,2,3]`. It panics if a dimension of the result is zero.
* C21: `partial_cmp` ignores shapes, so tensors that are not `==` may compare as `Equal`.
* C22: calls of safe functions with undefined behaviour: `get` on views; `t[(i, j)]` out of range on views (its panic message formats the view); `subslice_flat(o, 1, shape of size 0)` followed by `concatenate`; `tile` with a matrix of multiples; `fold_row` with rows of 2^32 elements; `matvec` with a rank-0 right operand whose `cols` was set; `matmul` with fewer matrices on the right (C48); `fold_axis`, `split` and `tile` (C71) in release builds after a size wrapped. Moreover `shape`, `offset` and `size` are public fields, and assigning them lets every later read leave the buffer (`C22_fields`).
* C23: `map`, `concatenate` and others ask the allocator for zero bytes on empty tensors.
* C31: `axis_from_rank` accepts every axis; `Axis::reduce` accepts every axis from `-rank` upwards.
* C32: folding the rows of a vector along its axis folds the only row once per element.
* C33: `normalize` along an axis other than the last stores the lines one after the other, i.e. transposed.

Arrays and initialisers

* C36: in release builds a cut far beyond the end makes `split` write outside its buffer. Splitting an empty axis gives no pieces.
* C37: `split(n)` with `n` not dividing the length may return more than `n` pieces (6 into 4 gives 6).
* C39: `unstack` returns no tensors for axis 0 and one for any other axis.
* C34: transposing a matrix without elements panics unless a batch dimension is zero (C34_transpose_empty), and then a zero among the last two dimensions becomes a one.
* C36, C37, C39: splitting or unstacking a tensor without elements panics or returns no pieces (C36_empty, C37_empty, C39_empty).
* C40: `tile` panics for a zero multiple, for multiples given as a scalar, and leaves memory uninitialised for some tensors of multiples of higher rank (C40_tile_any). For a scalar and no multiples it computes the recursion depth 0 - 1 (C40_tile_nothing).
* C41: `tril` and `triu` panic on empty matrices; `eye(0)` is a scalar zero.
* C43: endpoints of rank 5 are rejected; in binary32 the samples may be NaN and the last may differ from `end`. `geomspace` from 0 does not panic, although 0 has no logarithm: every sample, the last included, is NaN (`C80_geomspace_zero`).
* C44: `arange` with a negative step never returns, nor does a step lost by rounding.  Rounding
  may also add a member: from 0 to 3 in steps of a third there are ten (`C44_arange_count_refuted`).

Numbers

* C47: `matmul` labels the result of an m×k by k×n product with shape `[n, m]` (`matmul.rs:57`).
* C48: `matmul` reads past the right operand if that has fewer matrices.
* C49: `matvec` panics on empty operands.
* C51, C52: in binary32 the squares in `reduce_hypot` overflow, and `normalize_unit` gives NaN for constant tensors and when the range overflows.
* C53: in binary32 a sample may lie below the lower edge of its bin; counts stop at 2^24. When the difference of the extremes overflows, all samples are counted in the first bin and the edges are NaN and infinities.
* C68: the mean of equal elements may differ from them in binary32: three times 15866414 has mean 15866413.
* C69: on overflow the variance may be minus infinity and the deviation NaN, e.g. for -3·2^126 and 3·2^126.
* C80: in binary32 `normalize_unit` may make different elements equal (0 and 2^-149 beside 4); the last sample of `linspace` may lie above the end (0 to 16777215 in 26 samples ends at 16777216) or be infinite (0 to the greatest number in 26 samples).
* C83: in binary32 the variance of two different numbers may be 0 (16777218 and 16777220) or twice the real one (16777216 and 16777218).
* C71: `tile` with multiples `[2^32, 2^32]` panics in debug builds; in release builds the size wraps to 0 and it writes outside its buffer.
* C74: the `f32` sum of more than 2^24 ones is 2^24.
* C75: in release builds `dim(i)` accepts positions near 2^64 and returns 0 (`[2, 3]`, position 2^64 - 1); `rdim(i)` returns 0 for positions from the rank to 5; `idim(i)` wraps indices outside the rank, those below it after adding 2^64 (`C75_idim_refuted`).
* C77: `_map2_row` (never called) allocates one cell for each pair of rows and writes as many as the closure returns, at overlapping positions; for any number but one it would write past the end or leave cells uninitialised (`C77_map2_row_wide`).
* C73: because of C47, (ab)d may be defined where a(bd) panics, e.g. for 1×2, 2×1 and 1×1 matrices.
* C54: `histogram2d` panics on every input.
* C55: Rand64's outputs repeat after 2^96 steps.
* C56: Rand64's uniform variates reach 2^32; `random_uniform` draws normal variates; `next_normal` can be infinite in Rand32, and is NaN in Rand64 for every state whose next value is 2^32 or more, all but one in 2^32 (`C56_rand64_normal_nan`).
* C58: different seeds may give the same state, and the seed sequence comes back to earlier values.
* C59: a WAV file with an odd data length is accepted.
* C60: `read_file` makes a single read call; after a short read the rest is zeros.
* C61: `rfft_norm` panics on every matrix with at least two columns.
* C62: if an initialiser panics, the elements it has written are leaked.
* C65: `slice`, `map2_row`, `map2_expand` and `frame` end in `todo!()`.
