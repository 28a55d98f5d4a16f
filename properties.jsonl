{"id": "C01", "title": "Shape construction is faithful", "statement": "Building a Shape from a list of at most six dimensions, each below 2^32, gives a shape whose rank, as_vec, dim(i), rdim(i), cols, rows and len read back exactly that list, and whose size() is the product; a list of more than six dimensions panics. (Dimensions of 2^32 or more are silently truncated, so the claim without the bound is false.)", "quantifier": "every list of dimensions of every length, both overflow modes", "why_tests_cant": "the list space is infinite and the interesting failures are at 2^32 and at the fixed six-slot storage limit", "anchors": ["src/tensor/shape.rs: Shape::from, as_vec, dim, rdim, cols, rows, len, size, MAX_RANK"]}
{"id": "C02", "title": "Shape equality means equal dimensions", "statement": "Two shapes obtained by any sequence of shape operations compare equal with == exactly when their as_vec() agree. (False: with_cols and reduce on a rank-0 shape, and rinsert past the rank, leave hidden stale slots that == sees.)", "quantifier": "every pair of shapes reachable through the public constructors and edits", "why_tests_cant": "a test can only compare particular shapes; stale slots need a particular edit history", "anchors": ["src/tensor/shape.rs: derive(PartialEq) for Shape, with_cols, reduce, rinsert, pop, remove"]}
{"id": "C03", "title": "Axis edits are list edits", "statement": "insert, rinsert, remove, rremove, with_dim (replace), rreplace, with_cols, with_rows, push and pop act on as_vec() exactly as insertion, deletion or replacement at the named position (counted from the front, or from the back for the r-variants), leave every other dimension alone, remove undoes insert, and an out-of-range axis panics.", "quantifier": "every shape, every axis and every new dimension below 2^32", "why_tests_cant": "six-slot reversed storage makes every rank/axis pair a separate path", "anchors": ["src/tensor/shape.rs: insert, rinsert, remove, rremove, replace, rreplace, with_dim, with_cols, with_rows, push, pop"]}
{"id": "C04", "title": "A legal insertion never panics", "statement": "Inserting a dimension at any axis 0..=rank succeeds whenever the resulting rank is at most six. (False: inserting the outermost axis into a rank-5 shape panics, so rank-5 tensors cannot be stacked and rank-6 tensors cannot be concatenated along axis 0.)", "quantifier": "every shape of rank at most five and every axis", "why_tests_cant": "the failing case is one corner of the rank/axis grid", "anchors": ["src/tensor/shape.rs: insert, rinsert", "src/array/stack.rs: stack_vec, concat_axis"]}
{"id": "C05", "title": "squeeze and expand_dims preserve the element count and the order of the other dimensions", "statement": "squeeze(None) drops exactly the dimensions equal to 1 (leaving [1] if nothing remains), keeps the others in order and preserves size(); expand_dims(axis) inserts a 1 at the axis (negative axes counting from the end) and preserves size(); squeeze undoes expand_dims up to other unit dimensions.", "quantifier": "every shape with positive dimensions and every axis in range, negative or not", "why_tests_cant": "universally quantified over ranks, dims and signed axes", "anchors": ["src/tensor/shape.rs: Shape::squeeze, Shape::expand_dims, Tensor::squeeze, Tensor::expand_dims"]}
{"id": "C06", "title": "squeeze(axis) removes the named unit axis", "statement": "squeeze(Some(axis)) removes dimension axis when it is 1 and otherwise leaves the shape alone. (False: it acts on dimension axis-1, and axis 0 is never removed.)", "quantifier": "every shape and every axis", "why_tests_cant": "needs all rank/axis/dimension combinations; the shipped tests exercise a few", "anchors": ["src/tensor/shape.rs: Shape::squeeze, Tensor::squeeze_axis"]}
{"id": "C07", "title": "Shape::append yields the concatenated dimension list", "statement": "append(tail) yields a shape whose rank is rank + tail.len() and that is usable (as_vec does not panic). (False: the rank always grows by six.)", "quantifier": "every shape and every tail that fits in six dimensions", "why_tests_cant": "the method is never called by a test", "anchors": ["src/tensor/shape.rs: Shape::append"]}
{"id": "C08", "title": "Trailing-dimension broadcasting", "statement": "broadcast_to accepts two shapes exactly when the shorter dimension list is a suffix of the longer one, returns the longer one, and is commutative, associative and idempotent on accepted inputs; check_broadcast accepts exactly the same pairs.", "quantifier": "every pair (triple) of shapes", "why_tests_cant": "algebraic laws over all pairs and triples", "anchors": ["src/tensor/shape.rs: broadcast_to, broadcast, check_broadcast, broadcast_min"]}
{"id": "C09", "title": "Sub-products of dimensions", "statement": "sublen(i,j) is the product of dimensions i..j, rsublen(i,j) the product counted from the end; batch_len(base) is the number of base-rank items, i.e. the product of the outer rank-base dimensions (this last claim is false: it multiplies the inner rank-base dimensions).", "quantifier": "every shape and every pair i<=j<=rank", "why_tests_cant": "all shapes and ranges; off-by-one in reversed storage cannot be exhausted by examples", "anchors": ["src/tensor/shape.rs: sublen, rsublen, batch_len"]}
{"id": "C10", "title": "The size of a shape is the true product", "statement": "size() is the mathematical product of the dimensions or the call panics. (True with overflow checks on; false in release builds, where the u32 product wraps, so zeros([65536,65536]) is a tensor that claims 2^32 elements and owns none.)", "quantifier": "every shape, both overflow modes", "why_tests_cant": "needs shapes of more than 2^32 elements and both build profiles", "anchors": ["src/tensor/shape.rs: Shape::size"]}
{"id": "C11", "title": "Tensor construction from flat data", "statement": "Building a tensor from a vector and a shape succeeds exactly when the shape's size equals the vector length, and then the elements in row-major order are the vector; scalar, Option, array, slice and iterator conversions give shape [] or [n] with the same elements in order.", "quantifier": "every vector, every shape, every element type", "why_tests_cant": "all lengths and shapes", "anchors": ["src/tensor/tensor.rs: Tensor::new, from_vec, from_scalar, from_box, from_slice", "src/tensor/from.rs"]}
{"id": "C12", "title": "Nested vectors become row-major tensors", "statement": "Converting a nested vector of depth 2, 3 or 4 succeeds exactly when it is non-empty and rectangular, gives the shape of the nesting and element [i,j,..] is v[i][j][..]; ragged or empty nestings panic.", "quantifier": "every nested vector", "why_tests_cant": "all raggedness patterns", "anchors": ["src/tensor/from.rs: From<Vec<Vec<T>>> and deeper"]}
{"id": "C13", "title": "subslice is a row view", "statement": "subslice(o,n) with n>=1 and o+n <= dim(0) yields shape [n, rest] whose elements are rows o..o+n of the tensor without copying; any other o,n panics; a subslice of a subslice equals the direct subslice; the view never refers outside its parent.", "quantifier": "every tensor (including views), every offset and length, any nesting depth", "why_tests_cant": "all offsets/lengths including those near usize::MAX and arbitrary view nesting", "anchors": ["src/tensor/tensor.rs: subslice, subslice_flat"]}
{"id": "C14", "title": "subslice rejects every out-of-range request in release builds too", "statement": "subslice(o,n) panics whenever the true sum o+n exceeds dim(0), in every build profile. (False in release: subslice(2^63, 2^63+1) on a two-column tensor wraps around and returns row 0.)", "quantifier": "every tensor, offset and length, both overflow modes", "why_tests_cant": "needs requests around 2^63 and a release build", "anchors": ["src/tensor/tensor.rs: subslice, subslice_flat"]}
{"id": "C15", "title": "get(i) agrees with the element list", "statement": "For every tensor, get(i) is Some of the i-th row-major element when i < size and None otherwise. (True for tensors that start at the beginning of their buffer; false for views, where the view offset is applied twice: a wrong element or a read past the allocation.)", "quantifier": "every tensor including views, every i", "why_tests_cant": "wrong only for views at a non-zero offset", "anchors": ["src/tensor/tensor.rs: Tensor::get, as_ptr"]}
{"id": "C16", "title": "Tuple indexing is row-major", "statement": "t[(i,j)], t[(i,j,k)], ... (2 to 5 indices) on a tensor of that rank returns the row-major element at that coordinate, equals as_slice()[ravel], and panics exactly when some index is out of range; t[i] is the i-th row-major element and panics exactly when i >= size.", "quantifier": "every tensor including views, every index tuple", "why_tests_cant": "all coordinates of all shapes", "anchors": ["src/tensor/index.rs"]}
{"id": "C17", "title": "Reshaping preserves data", "statement": "reshape, flatten, expand_dims and squeeze return a tensor with exactly the same row-major elements; reshape succeeds exactly when the element counts agree and panics otherwise; reshaping back restores the original.", "quantifier": "every tensor, every target shape", "why_tests_cant": "all shape pairs", "anchors": ["src/tensor/shape.rs: Tensor::reshape, flatten, expand_dims, squeeze"]}
{"id": "C18", "title": "Wrapped slices implement repetition", "statement": "as_wrap_slice(k) is the tail of the element list from k mod size and as_wrap_ptr points at element k mod size; as_wrap_slice_n(k,n) is the n elements starting at k mod size when they fit. (The last is false for views, where the view offset is counted twice.)", "quantifier": "every non-empty tensor including views, every offset", "why_tests_cant": "all offset/size/view combinations", "anchors": ["src/tensor/tensor.rs: as_wrap_slice, as_wrap_slice_n, as_wrap_ptr"]}
{"id": "C19", "title": "Row iteration partitions the tensor", "statement": "iter_row yields consecutive rows of cols elements (single elements for rank <= 1), whose concatenation is the element list and whose number is size/cols; iter yields each element once in order.", "quantifier": "every tensor with at least one column", "why_tests_cant": "all shapes", "anchors": ["src/tensor/tensor.rs: iter, iter_row", "src/tensor/tensor_iter.rs"]}
{"id": "C20", "title": "Joining tensors end to end", "statement": "append, from_merge, join_vec and conversion from a slice of tensors produce the concatenation of the element lists with the documented shape; joining tensors whose shapes disagree panics; append's result starts with self's elements and ends with the argument's.", "quantifier": "every list of tensors including views and the empty list", "why_tests_cant": "arbitrary list lengths and shapes", "anchors": ["src/tensor/tensor.rs: append, from_merge, join_vec", "src/tensor/from.rs: From<&[Tensor<T>]>"]}
{"id": "C21", "title": "Equality and ordering of tensors", "statement": "== holds exactly when the dimensions and the elements are equal, independent of view offsets and sharing; partial_cmp is the lexicographic order of the element lists; and partial_cmp returns Equal exactly when == holds (this last claim is false: partial_cmp ignores the shape).", "quantifier": "every pair of tensors over a type with decidable equality and order", "why_tests_cant": "all pairs including views of different buffers", "anchors": ["src/tensor/tensor.rs: PartialEq", "src/math/num.rs: PartialOrd"]}
{"id": "C22", "title": "Safe calls keep tensors inside their buffers", "statement": "After any sequence of safe API calls on any tensors (construct, view, reshape, map, map2, fold, reduce, transpose, concatenate, stack, split, tile, append), every live tensor refers to a fully initialised range inside its buffer and no call exhibits undefined behaviour. Exceptions found and proved separately: get on views, matmul with too few batches in the right operand, and zero-length allocation.", "quantifier": "every finite history of calls, all arguments", "why_tests_cant": "a safety invariant over unbounded call histories", "anchors": ["src/tensor/tensor.rs", "src/tensor/data.rs", "src/tensor/map.rs", "src/array"]}
{"id": "C23", "title": "No zero-size allocation", "statement": "No safe API call asks the allocator for zero bytes (which Rust's allocator contract leaves undefined). (False: map on an empty tensor does.)", "quantifier": "every call on every tensor including empty ones", "why_tests_cant": "undefined behaviour that the usual allocator hides", "anchors": ["src/tensor/data.rs: unsafe_init"]}
{"id": "C24", "title": "init and init_rindexed visit every cell once, in order", "statement": "init(shape,f) calls f exactly size times and stores the results in call order; init_rindexed calls f with the coordinates (innermost first) of each cell in row-major order; f's panics propagate and a stateful f sees the calls in that order.", "quantifier": "every shape, every (stateful, possibly panicking) closure", "why_tests_cant": "call-order over all shapes and closures", "anchors": ["src/tensor/map.rs: init, init_rindexed", "src/tensor/shape.rs: next_index"]}
{"id": "C25", "title": "map is elementwise", "statement": "map(f) has the same shape, element i of the result is f(element i), and f is called exactly once per element in row-major order.", "quantifier": "every tensor including views, every stateful closure", "why_tests_cant": "all tensors and closures", "anchors": ["src/tensor/map.rs: map"]}
{"id": "C26", "title": "map_row and map_expand act on rows and elements", "statement": "map_row(f) with N outputs replaces each row of cols elements by the N outputs of f on that row (dropping the axis when N=1 and rank>1); map_expand(f) appends an axis of length N holding f's outputs for each element; rows and elements are visited once, in order.", "quantifier": "every tensor with at least one column, every closure and every N >= 1", "why_tests_cant": "all shapes and N", "anchors": ["src/tensor/map.rs: map_row, map_expand"]}
{"id": "C27", "title": "map2 and map3 broadcast on trailing dimensions", "statement": "a.map2(b,f) succeeds exactly when one shape is a suffix of the other (and neither is empty), its shape is the longer one, and the element at a coordinate is f(a,b) at the trailing parts of that coordinate; likewise map3 with three operands. Calls happen once per output element in row-major order.", "quantifier": "every pair (triple) of tensors including views, every closure", "why_tests_cant": "all broadcast combinations", "anchors": ["src/tensor/map.rs: map2, map3"]}
{"id": "C28", "title": "Arithmetic operators keep operand order", "statement": "tensor op tensor, tensor op scalar and scalar op tensor compute, at every coordinate, left op right with operands in the written order, for every binary operator provided (including non-commutative - / %), with map2's broadcasting; unary operators are elementwise.", "quantifier": "every operand pair and operator", "why_tests_cant": "operand swaps are invisible on symmetric test data", "anchors": ["src/math/num.rs", "src/math/integer.rs", "src/math/float.rs"]}
{"id": "C29", "title": "fold and reduce are left folds in row-major order", "statement": "fold(init,f,into) applies f to all elements left to right starting from init; reduce(f) does so starting from the first element and panics on an empty tensor; each element is used exactly once.", "quantifier": "every tensor including views, every stateful closure", "why_tests_cant": "all lengths and closures; order only visible for non-associative f", "anchors": ["src/tensor/map.rs: fold, reduce"]}
{"id": "C30", "title": "Axis folds fold exactly the named axis", "statement": "fold_axis(axis,..) and reduce_axis(axis,..) remove the axis (counting from the end when negative) and the element at a remaining coordinate is the left fold, in increasing axis order, of the elements obtained by inserting k=0..len-1 at that axis; with no axis they agree with fold/reduce.", "quantifier": "every tensor including views, every rank, axis and closure", "why_tests_cant": "all rank/axis combinations", "anchors": ["src/tensor/map.rs: fold_axis, reduce_axis", "src/tensor/axis.rs: reduce"]}
{"id": "C31", "title": "Axis arguments out of range are rejected", "statement": "An axis not in -rank..rank makes an axis operation panic. (False: a too large axis wraps modulo the rank, and in axis_from_rank even too negative axes are silently mapped to some other axis.)", "quantifier": "every rank and every signed axis", "why_tests_cant": "all signed 64-bit axes", "anchors": ["src/tensor/axis.rs: axis_from_rank, reduce, reduce_row"]}
{"id": "C32", "title": "fold_row folds the rows along an axis once each", "statement": "fold_row(axis,..) folds each row along the axis exactly once, in order. (True for buffers starting at offset 0 and rank >= 2 or no axis; false for a rank-1 tensor with an explicit axis, whose single row is folded size times, and on views at a non-zero offset, where it panics.)", "quantifier": "every tensor including views, every axis", "why_tests_cant": "all ranks, axes and views", "anchors": ["src/tensor/map.rs: fold_row", "src/tensor/axis.rs: reduce_row"]}
{"id": "C33", "title": "normalize rescales in place", "statement": "normalize(axis,..) keeps the shape and the element at each coordinate is the normalised value of the same coordinate under the statistics of its own axis line. (True for no axis or the last axis; false for other axes, where the output is laid out transposed.)", "quantifier": "every tensor and axis", "why_tests_cant": "all shapes and axes", "anchors": ["src/tensor/map.rs: normalize"]}
{"id": "C34", "title": "transpose swaps the last two axes", "statement": "transpose of a rank >= 2 tensor swaps the last two dimensions and element [..,i,j] of the result is [..,j,i] of the argument; a vector becomes a column; transposing twice is the identity.", "quantifier": "every non-empty tensor including views", "why_tests_cant": "all shapes and batches", "anchors": ["src/array/transpose.rs: transpose"]}
{"id": "C35", "title": "concatenate joins along the axis", "statement": "concatenate along an axis succeeds exactly when the tensors agree outside the axis, the axis length is the sum, and each input appears as the corresponding range along the axis.", "quantifier": "every non-empty list of tensors including views, every axis", "why_tests_cant": "arbitrary list lengths, ranks and axes", "anchors": ["src/array/stack.rs: concatenate, concatenate_axis, concat_axis, validate_concat"]}
{"id": "C36", "title": "split then concatenate is the identity", "statement": "split at any increasing list of cut points within the axis yields pieces that are the successive ranges along the axis, and concatenating them along the same axis gives back the original; out-of-range or decreasing cuts panic.", "quantifier": "every tensor including views, every axis, every list of cuts", "why_tests_cant": "round trip over all cut lists and axes", "anchors": ["src/array/split.rs: split_axis, split_by_axis", "src/array/stack.rs: concat_axis"]}
{"id": "C37", "title": "split(n) yields n equal pieces", "statement": "split into n sections succeeds exactly when n divides the axis length and yields n pieces of equal length. (When n divides, proved; false otherwise: length 6 split into 4 returns 6 pieces.)", "quantifier": "every tensor, axis and n", "why_tests_cant": "all divisibility relations", "anchors": ["src/array/split.rs: SplitEqual cuts"]}
{"id": "C38", "title": "stack adds an axis", "statement": "stacking k tensors of equal shape along axis a inserts a dimension k at a, and slice i along it is the i-th input; unequal shapes panic. vstack equals stack along axis 0, hstack equals concatenation along axis 1 (0 for vectors), dstack concatenates along the third axis.", "quantifier": "every non-empty list of tensors including views, every axis", "why_tests_cant": "arbitrary list lengths, ranks and axes", "anchors": ["src/array/stack.rs: stack, stack_axis, stack_vec, vstack, hstack, dstack"]}
{"id": "C39", "title": "unstack undoes stack", "statement": "unstack along an axis returns one tensor per index along the axis, inverse to stack. (False: it returns no tensors for axis 0 and one tensor for any other axis.)", "quantifier": "every tensor and axis", "why_tests_cant": "round-trip over all tensors", "anchors": ["src/array/stack.rs: unstack"]}
{"id": "C40", "title": "tile repeats", "statement": "tile(t, m) has shape max-rank product of the dimensions and multiples aligned at the end, and the element at a coordinate is t's element at that coordinate modulo t's dimensions.", "quantifier": "every tensor with positive dimensions, every list of positive multiples", "why_tests_cant": "recursive copy over arbitrary ranks and multiples", "anchors": ["src/array/tile.rs: tile, tile_rec"]}
{"id": "C41", "title": "eye, tri, tril, triu and diagflat", "statement": "eye(n), n >= 1, is 1 on the diagonal and 0 elsewhere; tri(n) is the n by n lower triangle of ones; tril/triu keep the elements on and below / on and above the main diagonal of every matrix in the batch and put zero elsewhere; diagflat puts a vector on the diagonal of a zero matrix. Ranks below 2 (tril, triu) and ranks other than 1 (diagflat) panic.", "quantifier": "every size, element type and batch shape with non-empty matrices", "why_tests_cant": "all sizes and batch shapes", "anchors": ["src/init/matrix.rs: eye, tri, tril, triu, diagflat"]}
{"id": "C42", "title": "meshgrid coordinates", "statement": "meshgrid returns one tensor per axis; under XY indexing element [..,y,x] of the i-th is axes[i] at the matching reversed coordinate, under IJ indexing at coordinate i; each has the product shape. mgrid::<M, N> gives the column counts and the row counts exactly, in binary32 for up to 2^24 rows and columns.", "quantifier": "every list of non-empty axes", "why_tests_cant": "any number and length of axes", "anchors": ["src/init/matrix.rs: meshgrid, build_meshgrid, build_meshgrid_axis"]}
{"id": "C43", "title": "linspace, logspace and geomspace structure", "statement": "linspace(start,end,n) has an outer axis of length n whose k-th entry is start + k*(end-start)/(n-1) for each pair of endpoints (exactly, over the reals), starting at start and ending at end; start > end panics. geomspace panics when the logarithms of some pair of endpoints are out of order or not comparable. In binary32 the samples are exact too when the endpoints are integers up to 2^24, at most 2^24 apart, and the distance divides into whole steps. Between such endpoints logspace gives its base to the whole exponents, rounded to one of the two nearest numbers and exact when the power is a binary32 number, if powf is faithfully rounded.", "quantifier": "all endpoints and lengths", "why_tests_cant": "all real endpoints and counts; float rounding checked separately", "anchors": ["src/init/vector.rs: linspace, logspace, geomspace"]}
{"id": "C44", "title": "arange terminates with the half-open progression", "statement": "arange(start,end,step) returns start, start+step, ... strictly before end and terminates for every non-zero step. (False: for negative step and end < start it never terminates.)", "quantifier": "all starts, ends and non-zero steps", "why_tests_cant": "non-termination cannot be observed by a test", "anchors": ["src/init/vector.rs: arange"]}
{"id": "C45", "title": "one_hot marks exactly the given indices", "statement": "one_hot(indices, depth) is a vector of length depth with 1 exactly at the listed positions and 0 elsewhere; an index >= depth panics.", "quantifier": "every list of indices and depth", "why_tests_cant": "all index sets", "anchors": ["src/init/vector.rs: one_hot"]}
{"id": "C46", "title": "matmul computes the matrix product", "statement": "For matrices and equal batches, the flat result of matmul (each transpose flag) is, per batch, sum over k of a[m,k]*b[k,n] in row-major m x n order.", "quantifier": "every compatible pair including views and batches, every transpose flag, any ring of entries", "why_tests_cant": "all sizes and stride combinations", "anchors": ["src/linalg/matmul.rs: matmul_t, Transpose::mkn, sgemm", "src/linalg/blas_naive.rs: sgemm_naive"]}
{"id": "C47", "title": "matmul result shape", "statement": "The product of an m x k and a k x n matrix has shape [m, n]. (False: it is labelled [n, m], so wrong whenever m and n differ.)", "quantifier": "every m, k, n", "why_tests_cant": "square tests hide it", "anchors": ["src/linalg/matmul.rs: matmul_t"]}
{"id": "C48", "title": "matmul stays inside its operands", "statement": "matmul never reads outside its operands' buffers. (True when both operands have the same number of batches; false when the right operand has fewer: it reads past its end before panicking.)", "quantifier": "every pair of operands and batches", "why_tests_cant": "out-of-bounds reads are silent in tests", "anchors": ["src/linalg/matmul.rs: matmul_t"]}
{"id": "C49", "title": "matvec applies the matrix to each row vector", "statement": "matvec(a,x) gives, for every batch and every row of x, the vector of dot products of the rows of a with that row (column dot products when transposed), with shape x.shape with the last dimension replaced; incompatible dimensions and empty operands panic; no access leaves the buffers.", "quantifier": "every compatible pair including batches and views", "why_tests_cant": "all sizes and batch combinations", "anchors": ["src/linalg/matvec.rs: matvec_t"]}
{"id": "C50", "title": "Mean and variance", "statement": "Over exact arithmetic reduce_mean is the arithmetic mean, reduce_variance the population variance sum((x-mean)^2)/n and reduce_std its square root, for the whole tensor and per axis; a single element has variance 0.", "quantifier": "every non-empty list of reals, every axis", "why_tests_cant": "Welford's recurrence must equal the two-pass formula for every input", "anchors": ["src/math/reduce.rs"]}
{"id": "C51", "title": "Sum, product, min, max, hypot reductions", "statement": "reduce_sum, reduce_product, reduce_min, reduce_max and reduce_hypot compute (over exact arithmetic) the sum, product, least element, greatest element and Euclidean norm, and axis sums add up to the total sum.", "quantifier": "every tensor and axis", "why_tests_cant": "all inputs", "anchors": ["src/math/reduce.rs"]}
{"id": "C52", "title": "normalize_unit maps into [0,1]", "statement": "Over exact arithmetic normalize_unit keeps the shape, maps the minimum to 0 and the maximum to 1, is monotone, and every value lies in [0,1], unless all elements are equal.", "quantifier": "every tensor of reals with at least two distinct values", "why_tests_cant": "all inputs", "anchors": ["src/math/normalize.rs: normalize_unit"]}
{"id": "C53", "title": "Histogram counts every sample once", "statement": "histogram(data, bins) returns counts that sum to the number of samples (up to 2^24 per bin), every sample is counted in a bin whose edges contain it (the last bin closed), and bins+1 increasing edges; an empty tensor panics.", "quantifier": "every non-empty list of finite samples and every positive number of bins", "why_tests_cant": "boundary samples and rounding", "anchors": ["src/stats/histogram.rs"]}
{"id": "C54", "title": "histogram2d returns counts", "statement": "histogram2d returns a two-dimensional table of counts for every non-empty list of points. (False: it panics on every input.)", "quantifier": "every input", "why_tests_cant": "no test covers it", "anchors": ["src/stats/histogram2d.rs"]}
{"id": "C55", "title": "The generators have full period", "statement": "Rand32 and Rand64 visit every one of their 2^64 (2^128) internal states before repeating, from every seed, and Rand32's outputs over one period hit every u32 value equally often.", "quantifier": "every seed; the whole period", "why_tests_cant": "2^64 steps cannot be run", "anchors": ["src/random/random.rs: Rand32, Rand64"]}
{"id": "C56", "title": "Uniform variates lie in [0,1]", "statement": "next_uniform returns a number in [0,1] for every state. (True for Rand32 in binary32 arithmetic; false for Rand64, which divides a 64-bit value by 2^32-1; and random_uniform's elements need not lie in [min,max) because it draws normal variates.) For Rand64, next_normal is therefore NaN for every state whose next value is 2^32 or more. It is computed as sqrt(-2 ln a) cos(tau b), a and b the next two variates. For Rand32, next_normal is a number of magnitude at most 7 unless the first value it draws is 0, for a logarithm and a cosine within their usual ranges.", "quantifier": "every internal state", "why_tests_cant": "2^64 states", "anchors": ["src/random/random.rs: Rand32::next_uniform, Rand64::next_uniform", "src/init/random.rs: random_uniform"]}
{"id": "C57", "title": "Seeding determines the stream", "statement": "The same explicit seed gives the same random tensor, the elements depend only on the element count (not on the shape), and a shorter tensor is a prefix of a longer one. The elements of a seeded normal or uniform tensor are numbers unless a draw is 0, for parameters up to 2^99 and a faithfully rounded logarithm and cosine.", "quantifier": "every seed and every pair of shapes", "why_tests_cant": "all seeds and shapes", "anchors": ["src/init/random.rs", "src/random/random.rs: From<u64>"]}
{"id": "C58", "title": "Thread seeds under every schedule", "statement": "After random_seed(s), the first uses of the generator in any number of threads, under any interleaving of their load/compare-exchange steps, receive successive distinct values of the seed sequence starting from s: no value is handed out twice and none is skipped.", "quantifier": "every number of threads and every interleaving", "why_tests_cant": "schedules of a lock-free loop", "anchors": ["src/random/random.rs: random_seed, thread-local seeding loop"]}
{"id": "C59", "title": "decode_wav inverts the WAV layout", "statement": "For every list of 16-bit samples and channel count dividing it, decoding the canonical RIFF/WAVE PCM bytes gives exactly the samples divided by 32768 in shape [frames, channels]; a file with a wrong magic, size, format or bit depth, or truncated, panics rather than returning data.", "quantifier": "every sample list, channel count and every malformed byte string", "why_tests_cant": "all byte strings", "anchors": ["src/io/decode_wav.rs"]}
{"id": "C60", "title": "read_file returns the whole file", "statement": "read_file returns exactly the bytes of the file whatever the operating system's read granularity. (False: one read call is made; a short read leaves zeros.)", "quantifier": "every file content and every legal read behaviour of the OS", "why_tests_cant": "short reads do not occur in tests", "anchors": ["src/io/read_file.rs"]}
{"id": "C61", "title": "rfft keeps batch dimensions", "statement": "rfft_norm on shape [.., n] returns [.., n/2+1], transforming every row. (True for vectors; false for matrices with more than one column, which panic.)", "quantifier": "every shape", "why_tests_cant": "all shapes", "anchors": ["src/signal/rfft.rs"]}
{"id": "C62", "title": "Buffers are freed exactly once, after the last user", "statement": "Under any history of creating, cloning, viewing, reshaping and dropping tensors, each buffer's elements are dropped exactly once, when its last tensor is dropped, and never while a tensor still refers to it.", "quantifier": "every finite history of operations", "why_tests_cant": "unbounded histories of aliasing", "anchors": ["src/tensor/tensor.rs: Clone, subslice_flat", "src/tensor/data.rs: Drop, from_boxed_slice, from_boxed_rows"]}
{"id": "C63", "title": "Option builders keep the last value set", "statement": "A derived option struct starts from the defaults; setting a field changes only that field, the last setting wins, settings of different fields commute, and () means all defaults.", "quantifier": "every sequence of setter calls on every set of fields", "why_tests_cant": "all sequences", "anchors": ["crates/essay-opt/src/options.rs"]}
{"id": "C64", "title": "Debug output shows the elements", "statement": "The Debug text of a tensor lists each element once in row-major order, grouped by the inner dimensions. (True for tensors starting at offset 0; false for views.)", "quantifier": "every tensor including views", "why_tests_cant": "all shapes", "anchors": ["src/tensor/tensor.rs: fmt_tensor_rec"]}
{"id": "C65", "title": "Unimplemented entry points always panic", "statement": "slice, map2_row, map2_expand and frame panic for every argument (they never return a wrong value).", "quantifier": "every argument", "why_tests_cant": "all inputs", "anchors": ["src/tensor/slice.rs", "src/tensor/map.rs: map2_row, map2_expand", "src/signal/frame.rs"]}
{"id": "C66", "title": "Deeper nestings become row-major tensors", "statement": "Converting a five-fold nested Vec, a Vec of Vecs of arrays, or a four-fold nested array gives the tensor whose shape lists the nesting lengths outermost first and whose element at a coordinate is the nested element at those indices. Ragged five-fold nestings and nestings with an empty outer level panic, and so does a Vec of Vecs of arrays that is empty or ragged.", "quantifier": "every nested input, every element type", "why_tests_cant": "all lengths at every level, and all ragged inputs", "anchors": ["src/tensor/from.rs:83-97", "src/tensor/from.rs:150-183", "src/tensor/from.rs:267-281"]}
{"id": "C67", "title": "Argument lists are joined in the order given", "statement": "However tensors are passed to concatenate, concatenate_axis, stack, stack_axis, dstack, hstack and vstack (vectors or slices of tensors, vectors of vectors, tuples of convertible values), the function acts on the converted tensors in the order given, and the methods (all but hstack exist as methods) put the receiver first. A component whose conversion panics makes the call panic. Concatenating along the first axis gives the inputs' elements one after another.", "quantifier": "every argument list of every length and every receiver", "why_tests_cant": "all lengths and shapes", "anchors": ["src/tensor/from.rs:337-468", "src/array/stack.rs:3-150"]}
{"id": "C68", "title": "Rounding errors of sums, means and products in binary32", "statement": "With f32 arithmetic rounded to nearest, a sum over n elements that does not overflow differs from the exact sum by at most ((1+u)^(n-1) - 1) times the sum of the magnitudes, u = 2^-24, for the whole tensor and for every line of an axis; integers whose partial sums stay within 2^24 are summed exactly. The mean of at most 2^24 elements has the corresponding bound with exponent n plus one underflow unit 2^-150, and the elements of matmul and matvec the bound with exponent k plus k (1+u)^k underflow units. The factor is at most n u / (1 - n u).", "quantifier": "every tensor of finite f32 whose result is finite, every rank, every axis", "why_tests_cant": "worst-case bounds over all 2^32 values per element and all lengths", "anchors": ["src/math/reduce.rs:31-38", "src/math/reduce.rs:57-64", "src/math/reduce.rs:99-121", "src/linalg/matmul.rs:30-160", "src/linalg/blas_naive.rs:3-36", "src/linalg/matvec.rs:10-135"]}
{"id": "C69", "title": "Variances and deviations in binary32 are never negative or NaN", "statement": "For elements that are finite f32 of magnitude at most 2^126, reduce_variance, reduce_std and their axis forms give values that compare as >= 0: rounding never makes the running sum of squares negative, so the square root is never NaN.", "quantifier": "every tensor with such elements (including empty ones), every axis", "why_tests_cant": "all roundings of the one-pass update, for all lengths", "anchors": ["src/math/reduce.rs:40-55", "src/math/reduce.rs:122-216"]}
{"id": "C70", "title": "Least and greatest ignore NaN in binary32", "statement": "reduce_min, reduce_max and their axis forms return an element of the tensor (line) that is at most (at least) every element that is not NaN; the result is NaN only if all elements are.", "quantifier": "every non-empty tensor of f32 including NaN, infinities and signed zeros; every axis", "why_tests_cant": "every placement of NaN among the elements", "anchors": ["src/math/reduce.rs:13-29"]}
{"id": "C71", "title": "Debug and release builds agree", "statement": "If a program that uses the library, with closures that may themselves do integer arithmetic and call the library, runs in a debug build (overflow checks on) without panicking, then the release build (overflow checks off) has the same outcome: the same value, or the same undefined behaviour. Release builds never panic where debug builds do not.", "quantifier": "every composition of library calls, closures, loops and integer arithmetic; every input", "why_tests_cant": "tests run in one profile; the claim relates two executions of every program", "anchors": ["src/tensor/shape.rs", "src/tensor/tensor.rs", "src/tensor/map.rs", "src/array", "src/init", "src/math", "src/linalg", "src/stats", "src/signal", "src/io"]}
{"id": "C72", "title": "Operators lift the laws of the elements", "statement": "Whatever algebraic law the element operations satisfy, the operators on tensors satisfy too: commutativity, associativity and distributivity for operands of any shapes (both sides panic for the same shapes), neutral elements, inverses, composition of element functions, homomorphisms. Reducing with an associative and commutative operation distributes over combining two tensors of the same dimensions, does not depend on the order in which axes are reduced, and reducing an axis and then the rest equals reducing everything.", "quantifier": "all element types and operations with the law, all shapes up to rank six, all contents", "why_tests_cant": "the laws relate several calls on arbitrary broadcast shapes and element types", "anchors": ["src/math/num.rs", "src/math/reduce.rs", "src/tensor/map.rs"]}
{"id": "C73", "title": "Matrices form an algebra", "statement": "Over a commutative semiring (such as the reals or the integers) matmul is associative and distributive, respects multiplication by numbers, and has eye as identity; products that are not square have to be relabelled between two multiplications. Transposing a product reverses the factors, the transpose flags equal transposing first, and matvec is the product with a column: (ab)x = a(bx), a(x+y) = ax + ay, 1x = x.", "quantifier": "all batches of matrices of fitting sizes, all semirings", "why_tests_cant": "the laws relate several calls for matrices of every size", "anchors": ["src/linalg/matmul.rs", "src/linalg/matvec.rs", "src/linalg/blas_naive.rs", "src/array/transpose.rs", "src/init/matrix.rs"]}
{"id": "C74", "title": "Constant tensors", "statement": "fill, ones, zeros and init_default give a tensor of the requested shape whose every element is the value. Elementwise functions, operators with broadcasting, reshape and transpose of constant tensors give the constant tensor of the result; a constant tensor of a neutral element changes nothing; over the reals the sum of a constant tensor is its number of elements times the value, and the f32 sum of n ones is the smaller of n and 2^24.", "quantifier": "all shapes up to rank six, all element types and values", "why_tests_cant": "tests use a few small shapes; the f32 count saturates only beyond 2^24 elements", "anchors": ["src/init/mod.rs", "src/tensor/tensor.rs", "src/math/reduce.rs"]}
{"id": "C75", "title": "Accessors and forwarding methods", "statement": "rank, size, shape, dim, rdim, len, cols, rows, deref, iteration and as_ref of a tensor return the parts of its dimensions and elements, and dim panics from the rank on (positions below 2^63). The Debug text of a shape determines the shape. Methods that forward (tile, transpose, t, eye, identity, tri, diagflat, tril, triu, meshgrid, zeros, ones, fill, random, arange, linspace, logspace, geomspace, one_hot) pass their arguments on unchanged. re and im take a complex tensor apart and nothing is lost; to_polar and from_polar are inverse if the element functions are; sin_cos, powi, mul_add and the rotations apply the element function with broadcasting and operands in the written order. idim returns the dimension at a signed index that counts from the end when negative, and wraps indices outside the rank instead of rejecting them.", "quantifier": "all tensors, shapes, element types and element functions", "why_tests_cant": "the accessors and forwarding methods are barely tested and never outside rank two", "anchors": ["src/tensor/shape.rs", "src/tensor/tensor.rs", "src/tensor/axis.rs", "src/init", "src/math/complex.rs", "src/math/float.rs", "src/math/integer.rs"]}
{"id": "C76", "title": "Operations do not look at the elements", "statement": "Reading, reshaping, slicing, transposing, splitting, joining, tiling, converting, comparing and printing a tensor commute with applying a function to every element: same shape, same panics, same undefined behaviour, mapped elements. Operations that take closures give related results for related closures, states and tensors. Sums, products, minima, maxima and matrix products commute with functions that preserve the operations they use; in particular the real product of matrices of integers is the integer product.", "quantifier": "all configurations, tensors, shapes, arguments, element types, functions and relations between element types", "why_tests_cant": "tests run on a few element types and values and cannot compare all of them", "anchors": ["src/tensor/tensor.rs", "src/tensor/map.rs", "src/tensor/axis.rs", "src/array", "src/init", "src/math/reduce.rs", "src/linalg"]}
{"id": "C77", "title": "Functions that nothing calls", "statement": "_map2_row with closures that return one value gives one value per pair of rows, the rows of the shorter operand repeated; with closures that return any other number of values it would be undefined behaviour for every input with rows. _read_u16 reads two bytes with the high one first. _read_slice copies the bytes at the cursor without moving it, or panics.", "quantifier": "all operands that are not views, row lengths, closures with state, byte lists and positions", "why_tests_cant": "nothing calls these functions, so no test can reach them; they are compiled and ready to be called", "anchors": ["src/tensor/map.rs:316", "src/io/decode_wav.rs:84", "src/io/decode_wav.rs:110"]}
{"id": "C78", "title": "A view behaves like a copy", "statement": "Two tensors of the same shape with the same elements cannot be told apart by any operation on tensors, wherever in whatever buffers the elements are: reads are equal, operations succeed or panic together, results have the same shape and elements, and closures go through the same states. The exceptions are get, as_wrap_slice_n, fold_row, the Debug text and, through it, indexing by two coordinates out of range: these agree for tensors at the beginning of their buffers, and differ for others. The products of matrices on views give whatever they give on copies, when that is not undefined behaviour.", "quantifier": "all tensors, buffers, offsets, element types, closures with state and both build profiles", "why_tests_cant": "an operation that forgets the offset of a view, or looks at elements outside it, is right for all the tensors that the tests build from literals", "anchors": ["src/tensor/tensor.rs:62", "src/tensor/tensor.rs:75", "src/tensor/tensor.rs:85", "src/tensor/tensor.rs:126", "src/tensor/map.rs:24", "src/linalg/matmul.rs:44"]}
{"id": "C79", "title": "Operations compose", "statement": "Reshaping twice is reshaping once; a map of a map is the map of the composition, and maps of the arguments of map2 and fold fuse likewise; joining groups of tensors and then the results joins all of them; splitting a joined tensor where its parts meet, or slicing it there, gives the parts back, and a slice of a stack shows the tensor at that place; for an associative function, reducing a joined tensor, along the joined axis or as a whole, combines the reductions of the parts; joining by columns and transposing is transposing and joining by rows; tiling twice multiplies the multiples; and broadcasting an argument is tiling it first.", "quantifier": "all tensors and views, axes, dimensions, numbers of parts, element types and functions (the outer ones with state), and both build profiles", "why_tests_cant": "two operations can each look right on examples and still disagree on where elements lie, or on shapes of other ranks; the laws relate results that have no simple closed form", "anchors": ["src/array/stack.rs:14", "src/array/stack.rs:47", "src/array/split.rs:10", "src/array/tile.rs:12", "src/array/transpose.rs:3", "src/tensor/map.rs:23", "src/tensor/map.rs:58", "src/tensor/map.rs:167", "src/tensor/shape.rs:526"]}
{"id": "C80", "title": "Normalised values, samples, products and norms in binary32", "statement": "In binary32, normalize_unit of numbers that are not all equal and whose differences do not overflow gives numbers between 0 and 1 in the same order, not necessarily strictly, the least element becoming 0 and the greatest 1, each within four relative rounding errors of its real value, up to underflow. The samples of linspace do not decrease and do not lie below the start when end - start is finite and start <= end, and each that is a number is within its rounding error and three relative rounding errors of the distance from the start, up to underflow, of its real value; the last may lie above the end or be infinite. A product without underflow and a hypot differ from their real values by at most the accumulated relative rounding errors. The samples of geomspace between numbers from 2^-100 to 2^100 are within one part in 8192 of their real values, if the logarithm and the exponential are faithfully rounded and the logarithms of the endpoints are in order. From an endpoint whose logarithm is -infinity every sample of geomspace is the exponential of NaN. Those of logspace, for bases from 1/16 to 16 and exponents from -25 to 25, are within one part in 4096 if powf is faithfully rounded.", "quantifier": "all tensors of binary32 numbers within the stated conditions, all lengths, both build profiles", "why_tests_cant": "rounding, underflow and overflow depend on the values; the tests use small integers, for which the arithmetic is exact", "anchors": ["src/math/normalize.rs:6", "src/init/vector.rs:83", "src/math/reduce.rs:8", "src/math/reduce.rs:67", "src/init/vector.rs:37", "src/init/vector.rs:127"]}
{"id": "C81", "title": "Operations keep what holds of all the elements", "statement": "Whatever holds of every element in the buffers of the arguments holds, if the call returns, of every element read, of every element in the buffers of the results of views, rearrangements, joins, conversions and (with the constants zero and one) matrix constructors, and of every element shown by Debug; so results contain no elements but those of the arguments. For operations with closures, an invariant of the closure's state and a property of the values it returns hold of the final state and of every element of the result.", "quantifier": "all properties of elements, all invariants, all tensors including views, closures with state that may panic, both build profiles", "why_tests_cant": "a property of elements is arbitrary, e.g. that they are initialised, finite, or valid indices; a test compares particular results", "anchors": ["src/tensor/map.rs:23", "src/tensor/map.rs:116", "src/array/transpose.rs:3", "src/array/tile.rs:12", "src/array/stack.rs:14"]}
{"id": "C82", "title": "Matrix products by any kernel", "statement": "Let the kernel that multiplies two strided matrices be any function that, for alpha = 1, beta = 0 and entries inside the buffers, returns and writes into each cell of the output a value acceptable for the list of pairs of factors of that entry, and writes nothing else. Then matmul and matvec, for each transpose flag, batches and views, return the same shape as with the naive kernel, and every element is acceptable for the pairs of its row and column; the calls that panic are the same. If acceptable means a binary32 sum of the products in any order and grouping, with or without fused multiply-add, the error bounds of C68 hold, and sums of integer products whose absolute values add up to at most 2^24 are exact.", "quantifier": "all kernels within the contract, all notions of acceptable values, all compatible operands including batches and views, both build profiles", "why_tests_cant": "the default kernel is an external crate whose order of summation depends on the processor and the sizes", "anchors": ["src/linalg/blas.rs:8", "src/linalg/matmul.rs:44", "src/linalg/matmul.rs:107", "src/linalg/matvec.rs:10", "src/linalg/matvec.rs:88"]}
{"id": "C83", "title": "Variances and deviations in binary32 are close to the real ones", "statement": "For n elements, 1 <= n <= 2^23, that are binary32 numbers of magnitude at most M with 2^-60 <= M <= 2^48, reduce_variance returns a number whose distance from the real variance of the elements is at most 100 n u M^2, where u = 2^-24, and reduce_std returns a number whose distance from the real deviation is at most 11 sqrt(n u) M; the same holds for each line of reduce_variance_axis and reduce_std_axis. The error relative to the variance itself has no bound: two different numbers may have variance 0, or twice the real one.", "quantifier": "all tensors of any shape and views of them, all values within the bounds, all orders of magnitude M, both build profiles", "why_tests_cant": "the errors of Welford's recurrence accumulate over the elements; a test compares a few values with a tolerance", "anchors": ["src/math/reduce.rs:40", "src/math/reduce.rs:129", "src/math/reduce.rs:165", "src/math/reduce.rs:180", "src/math/reduce.rs:207"]}
{"id": "C84", "title": "Tensors of integers are computed exactly in binary32", "statement": "For tensors whose elements are integers held in binary32: reduce_sum and reduce_product, and their axis versions, return the exact integer when the sums or products of the first elements stay within 2^24 in magnitude; reduce_mean of up to 2^24 elements, and each line of reduce_mean_axis, is then the real mean rounded once to nearest even; the operators +, - and * are exact wherever the result is within 2^24; and matmul and matvec with every transpose flag are exact, by any kernel that adds the products in some order, in the entries whose products sum to at most 2^24 in absolute value.", "quantifier": "all tensors of any shape and views of them, all integers within the bounds, every kernel, both build profiles", "why_tests_cant": "tests compare a few small integers; that no intermediate value is rounded has to hold for every one", "anchors": ["src/math/reduce.rs:31-38", "src/math/reduce.rs:57-75", "src/math/reduce.rs:99-121", "src/math/num.rs", "src/linalg/matmul.rs:30-160", "src/linalg/matvec.rs:10-135"]}
