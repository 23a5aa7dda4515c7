{"id": "C01", "title": "Key encode/decode round trip", "statement": "key2xyz(xyz2key(x,y,z,b,depth),depth) returns exactly (x,y,z,b) whenever 0<=x,y,z<2^depth, depth<=16 and -32768<=b<32768 (so in particular for every documented batch index), under 64-bit wrap-around arithmetic.", "quantifier": "every depth 0..16, every coordinate triple of that depth, every batch index in the 16-bit signed range", "why_tests_cant": "the input space is 2^63 keys; the unit test samples 10000 random triples at depth 16 only", "anchors": ["ocnn/octree/shuffled_key.py:xyz2key", "ocnn/octree/shuffled_key.py:key2xyz"]}
{"id": "C02", "title": "Key decode/encode round trip", "statement": "xyz2key(*key2xyz(key,depth),depth) returns the same key for every key whose coordinate part fits the depth: the code is a bijection between keys and (x,y,z,b).", "quantifier": "every depth 0..16 and every key with coordinate part below 8^depth", "why_tests_cant": "2^63 keys; no test covers this direction", "anchors": ["ocnn/octree/shuffled_key.py:xyz2key", "ocnn/octree/shuffled_key.py:key2xyz"]}
{"id": "C03", "title": "Key bit layout", "statement": "The look-up-table encoder produces the bit-interleaved (Morton) code: bit 3i+2 of the key is bit i of x, bit 3i+1 of y, bit 3i of z, and the bits from 48 up hold the batch index; the table-driven and the loop-driven encoders agree; coordinates outside [0,2^depth) are silently reduced modulo 2^depth.", "quantifier": "all integers x,y,z (also negative and too large), all depths 0..16", "why_tests_cant": "the tables have 256/512 entries combined by masking and shifting; agreement must hold for every combination", "anchors": ["ocnn/octree/shuffled_key.py:KeyLUT", "ocnn/octree/shuffled_key.py:xyz2key"]}
{"id": "C04", "title": "Parent and child keys", "statement": "Shifting a node key right by 3 bits gives the key of the enclosing cell one level up (coordinates halved), and the low three bits are the octant number 4*(x%2)+2*(y%2)+(z%2).", "quantifier": "all depths 1..16 and all cells", "why_tests_cant": "holds for every cell; tests only compare a few stored octrees", "anchors": ["ocnn/octree/shuffled_key.py:xyz2key", "ocnn/octree/octree.py:Octree.build_octree", "ocnn/octree/octree.py:Octree.octree_grow"]}
{"id": "C05", "title": "Key order groups batch and parents", "statement": "Comparing keys compares the batch index first, and within a batch the parent's key before the octant, so sorting keys makes batches and sibling groups contiguous; distinct cells have distinct keys.", "quantifier": "all pairs of cells at all depths 0..16", "why_tests_cant": "a statement about all pairs of keys", "anchors": ["ocnn/octree/shuffled_key.py:xyz2key", "ocnn/octree/octree.py:Octree.search_key"]}
{"id": "C06", "title": "Key tables do not depend on call history", "statement": "Whatever sequence of encode_lut/decode_lut requests for whatever devices came before, the tables returned for a device equal the CPU tables computed at import, so key values do not depend on history or device.", "quantifier": "every finite history of (device, encode/decode) requests", "why_tests_cant": "histories are unbounded", "anchors": ["ocnn/octree/shuffled_key.py:KeyLUT.encode_lut", "ocnn/octree/shuffled_key.py:KeyLUT.decode_lut"]}
{"id": "C07", "title": "search_key is exact", "statement": "search_key(query,depth,nempty) returns for each query the unique row index whose node has that key, and -1 if and only if no such node exists, including queries below the smallest and above the largest key, and never raises.", "quantifier": "every well-formed octree, every depth, every list of query keys, both values of nempty", "why_tests_cant": "binary search over arbitrary sorted keys with out-of-range queries; the test uses one stored octree", "anchors": ["ocnn/octree/octree.py:Octree.search_key"]}
{"id": "C08", "title": "search_xyzb is exact for in-range queries", "statement": "For query coordinates inside [0,2^depth) search_xyzb returns the row of the node with these integer coordinates and batch index, -1 iff there is none. For coordinates outside the range the query is not rejected: it aliases the wrapped cell (refutation of the unrestricted statement).", "quantifier": "every well-formed octree, all in-range (x,y,z,b) queries; all out-of-range ones for the refutation", "why_tests_cant": "unbounded number of octrees and queries", "anchors": ["ocnn/octree/octree.py:Octree.search_xyzb"]}
{"id": "C09", "title": "Built octree contains exactly the occupied cells", "statement": "After build_octree the non-empty nodes of the finest layer are exactly the cells that contain at least one input point, each once, in increasing key order.", "quantifier": "every point cloud with coordinates in [-1,1), every depth<=16, every full_depth<=depth, every batch size", "why_tests_cant": "all point clouds; tests use five stored clouds", "anchors": ["ocnn/octree/octree.py:Octree.build_octree"]}
{"id": "C10", "title": "Point-to-node map", "statement": "build_octree returns, for each input point, the index of the finest-level non-empty node containing that point, so gathering the non-empty keys with it reproduces each point's own key.", "quantifier": "every point cloud, every point", "why_tests_cant": "all clouds and all points; the returned map is not tested at all", "anchors": ["ocnn/octree/octree.py:Octree.build_octree"]}
{"id": "C11", "title": "Structural invariants of a built octree", "statement": "In every layer of a built octree: keys are strictly increasing; the recorded child index of the j-th non-empty node is j and of an empty node is -1; the next layer consists of exactly the eight children of each non-empty node, in the order of the child indices; build never raises.", "quantifier": "every point cloud, depth<=16, full_depth<=depth, batch size<=32768, every layer", "why_tests_cant": "an invariant over all inputs and all layers", "anchors": ["ocnn/octree/octree.py:Octree.build_octree", "ocnn/octree/octree.py:Octree.octree_grow_full"]}
{"id": "C12", "title": "Layer occupancy is ancestor occupancy", "statement": "For every layer between full_depth and depth a node is non-empty iff it is an ancestor of a cell containing an input point; layers above full_depth are complete grids with 8^d nodes per batch element.", "quantifier": "every point cloud, every layer", "why_tests_cant": "all inputs, all layers", "anchors": ["ocnn/octree/octree.py:Octree.build_octree", "ocnn/octree/octree.py:Octree.octree_grow_full"]}
{"id": "C13", "title": "Node counters are truthful", "statement": "nnum[d] and nnum_nempty[d] equal the number of stored nodes and of non-empty nodes of layer d, and nnum[d+1] = 8*nnum_nempty[d] for d>=full_depth.", "quantifier": "every octree obtained by build, merge, init or any split/grow history, every layer", "why_tests_cant": "counters are maintained separately from the tensors by four different functions", "anchors": ["ocnn/octree/octree.py:Octree.build_octree", "ocnn/octree/octree.py:Octree.octree_split", "ocnn/octree/octree.py:Octree.octree_grow", "ocnn/octree/octree.py:merge_octrees"]}
{"id": "C14", "title": "Node signals are per-node averages", "statement": "After build_octree, row i of points/features of the finest layer is the arithmetic mean of the (rescaled) points/features of the input points falling in node i, and row i of normals is the normalised sum of their normals; nothing leaks between nodes.", "quantifier": "every point cloud with or without normals/features", "why_tests_cant": "all point-to-node distributions", "anchors": ["ocnn/octree/octree.py:Octree.build_octree", "ocnn/utils.py:scatter_add"]}
{"id": "C15", "title": "The averaged point stays in its cell", "statement": "For points in [-1,1) the averaged point of a node lies in the node's own cell: flooring it gives the node's integer coordinates, so the local coordinates exposed by get_input_feature('L') are in [-0.5,0.5) and the global ones in [-1,1).", "quantifier": "every point cloud in [-1,1)^3 (exact arithmetic)", "why_tests_cant": "averaging over arbitrarily many points", "anchors": ["ocnn/octree/octree.py:Octree.build_octree", "ocnn/octree/octree.py:Octree.get_input_feature"]}
{"id": "C16", "title": "Point order does not matter", "statement": "Permuting the points (with their attributes) does not change the built octree: keys, children, counters and averaged signals are identical, and the point-to-node map is permuted accordingly.", "quantifier": "every point cloud and every permutation", "why_tests_cant": "n! permutations of arbitrary n", "anchors": ["ocnn/octree/octree.py:Octree.build_octree"]}
{"id": "C17", "title": "Documented range [-1,1]", "statement": "The documentation requires points in [-1,1]. Every point in the half-open range lands in its own cell; a point with a coordinate equal to +1 is stored in the opposite boundary cell (refutation of the closed-range statement).", "quantifier": "every point with coordinates in [-1,1]", "why_tests_cant": "boundary behaviour at every depth", "anchors": ["ocnn/octree/octree.py:Octree.build_octree", "ocnn/octree/shuffled_key.py:xyz2key"]}
{"id": "C18", "title": "Batched build equals merge of single builds", "statement": "Building one octree from merge_points([p1..pn]) gives the same keys, children, counters and signals in every layer as building each cloud separately and calling merge_octrees.", "quantifier": "every list of point clouds (also empty ones), all depths", "why_tests_cant": "two different code paths must agree on all inputs; the test compares one pair", "anchors": ["ocnn/octree/octree.py:Octree.build_octree", "ocnn/octree/octree.py:merge_octrees", "ocnn/octree/points.py:merge_points"]}
{"id": "C19", "title": "octree_split semantics", "statement": "After octree_split(split,d) exactly the nodes flagged 1 are non-empty and get consecutive child indices in order; if no node is flagged, exactly node 0 becomes non-empty, so a split layer is never entirely empty.", "quantifier": "every 0/1 split vector of any positive length", "why_tests_cant": "2^n split vectors", "anchors": ["ocnn/octree/octree.py:Octree.octree_split"]}
{"id": "C20", "title": "Any split/grow history yields a well-formed octree", "statement": "Starting from init_octree, after any sequence of network predictions fed to octree_split/octree_grow for depths full_depth..depth, every layer satisfies the structural invariants and the neighbourhood tables built on the way are correct.", "quantifier": "every decoder run: every sequence of split vectors of the right lengths, every depth and batch size", "why_tests_cant": "unboundedly many growth histories", "anchors": ["ocnn/octree/octree.py:Octree.octree_grow", "ocnn/octree/octree.py:Octree.octree_split", "ocnn/octree/octree.py:init_octree"]}
{"id": "C21", "title": "Re-growing reproduces the octree", "statement": "Feeding the occupancy of a built (or merged) octree layer by layer into octree_split/octree_grow on a fresh full octree reproduces the same keys, children, counters and neighbourhoods.", "quantifier": "every built or merged octree", "why_tests_cant": "must hold for every octree; one stored example is tested", "anchors": ["ocnn/octree/octree.py:Octree.octree_grow", "ocnn/octree/octree.py:Octree.octree_split"]}
{"id": "C22", "title": "init_octree is a dense grid", "statement": "init_octree(depth,full_depth,B) contains, for every d<=full_depth, every cell of the 2^d grid for every batch element exactly once in increasing key order, all non-empty.", "quantifier": "all depths and batch sizes", "why_tests_cant": "all sizes", "anchors": ["ocnn/octree/octree.py:init_octree", "ocnn/octree/octree.py:Octree.octree_grow_full"]}
{"id": "C23", "title": "Neighbourhood tables are correct", "statement": "After construct_all_neigh, entry k of node i in layer d is the row of the node at offset k of {-1,0,1}^3 from i in the same batch element if that node exists in the layer, and -1 otherwise; and the construction raises no error.", "quantifier": "every well-formed octree with full_depth>=1, every layer 1..depth, every node, every one of the 27 offsets", "why_tests_cant": "the sparse branch derives a layer's table from the previous layer through look-up tables, an induction over depth for all octrees", "anchors": ["ocnn/octree/octree.py:Octree.construct_neigh", "ocnn/octree/octree.py:Octree.construct_all_neigh"]}
{"id": "C24", "title": "Neighbourhoods are symmetric and stay in their batch element", "statement": "If j is the neighbour of i at offset k then i is the neighbour of j at offset 26-k; neighbours always have the same batch index; the centre entry (13) of each row is the node itself.", "quantifier": "every well-formed octree, all pairs of nodes", "why_tests_cant": "all pairs of nodes", "anchors": ["ocnn/octree/octree.py:Octree.construct_neigh"]}
{"id": "C25", "title": "Full and sparse neighbour construction agree", "statement": "For a layer that is complete, the direct formula used up to full_depth and the inductive formula used below it give the same table.", "quantifier": "all depths and batch sizes", "why_tests_cant": "the two branches must agree for all sizes", "anchors": ["ocnn/octree/octree.py:Octree.construct_neigh"]}
{"id": "C26", "title": "get_neigh restricted to non-empty nodes", "statement": "With nempty=True, row r belongs to the r-th non-empty node (stride 1) or r-th non-empty parent (stride 2), and each entry is the index among non-empty nodes of the neighbour, or -1 if the neighbour is absent or empty; with stride 2 the rows are those of the first siblings.", "quantifier": "every well-formed octree, all depths, kernels, strides", "why_tests_cant": "index remapping over arbitrary octrees", "anchors": ["ocnn/octree/octree.py:Octree.get_neigh"]}
{"id": "C27", "title": "Kernel strings select the right offsets", "statement": "For each supported kernel string the selected columns are exactly the offsets of the corresponding box ('222' -> {0,1}^3, '311' -> {-1,0,1}x{0}x{0}, ...), in row-major order; any other string is rejected with ValueError.", "quantifier": "all strings", "why_tests_cant": "the reject half ranges over all strings", "anchors": ["ocnn/octree/octree.py:Octree.reset", "ocnn/octree/octree.py:Octree.get_neigh"]}
{"id": "C28", "title": "Queries never modify the octree", "statement": "Any sequence of get_neigh / search_key / key / xyzb / batch_id / nempty_mask calls leaves all stored tensors unchanged, so results do not depend on the history of earlier queries (the remapping writes into a copy).", "quantifier": "every finite history of read calls on every octree", "why_tests_cant": "histories are unbounded; aliasing bugs show only for particular orders", "anchors": ["ocnn/octree/octree.py:Octree.get_neigh", "ocnn/octree/octree.py:Octree.search_key"]}
{"id": "C29", "title": "merge_octrees preserves every member", "statement": "The merged octree is well formed, and restricted to batch index i it is the i-th input octree (same cells, emptiness and signals, child indices shifted by the preceding non-empty counts); the inputs are not modified.", "quantifier": "every non-empty list of well-formed single octrees of equal depth/full_depth, every layer", "why_tests_cant": "all lists of octrees", "anchors": ["ocnn/octree/octree.py:merge_octrees"]}
{"id": "C30", "title": "merge_octrees of already batched octrees", "statement": "merge_octrees accepts any octrees; merging octrees that are themselves batches keeps their samples apart (refuted: the batch bits of the inputs are cleared, nodes of different samples get the same key).", "quantifier": "all lists of octrees of any batch size", "why_tests_cant": "needs a witness over all batch sizes", "anchors": ["ocnn/octree/octree.py:merge_octrees"]}
{"id": "C31", "title": "merge_points bookkeeping", "statement": "merge_points concatenates points and attributes in order, batch_npt lists the lengths, batch_id repeats i over the i-th block and batch_size is the number of clouds, so splitting by batch_npt recovers the inputs.", "quantifier": "every non-empty list of clouds", "why_tests_cant": "all lists of clouds", "anchors": ["ocnn/octree/points.py:merge_points"]}
{"id": "C32", "title": "Neighbours of a merged octree", "statement": "construct_all_neigh on a merged octree gives, for the nodes of the i-th member, the member's own table with valid entries shifted by the number of nodes of the preceding members.", "quantifier": "every list of well-formed octrees", "why_tests_cant": "all lists of octrees", "anchors": ["ocnn/octree/octree.py:merge_octrees", "ocnn/octree/octree.py:Octree.construct_neigh"]}
{"id": "C33", "title": "Pad and depad are inverse", "statement": "octree_depad(octree_pad(x))==x, octree_pad(octree_depad(y)) equals y on non-empty nodes and the pad value elsewhere, and shapes match the octree counters.", "quantifier": "every octree layer, every feature tensor of matching height", "why_tests_cant": "all masks and data", "anchors": ["ocnn/nn/octree_pad.py:octree_pad", "ocnn/nn/octree_pad.py:octree_depad"]}
{"id": "C34", "title": "octree2col and col2octree are adjoint", "statement": "octree2col gathers neighbour features (zero where the neighbour is missing) and col2octree is its exact transpose: <octree2col(x),y>==<x,col2octree(y)>.", "quantifier": "all octrees, features, kernels, strides, nempty", "why_tests_cant": "all tensors", "anchors": ["ocnn/nn/octree2col.py:octree2col", "ocnn/nn/octree2col.py:col2octree"]}
{"id": "C35", "title": "Convolution result does not depend on max_buffer", "statement": "The sub-matrix convolution (direct_method=False) gives the same result as the direct method for every buffer size that can hold one row, covers every output row exactly once and never raises; if max_buffer is smaller than one row and the layer is non-empty the code divides by zero.", "quantifier": "every number of rows, kernel, channel count and max_buffer", "why_tests_cant": "chunk boundary arithmetic for all sizes", "anchors": ["ocnn/nn/octree_conv.py:OctreeConvBase.setup", "ocnn/nn/octree_conv.py:OctreeConvBase.forward_gemm"]}
{"id": "C36", "title": "Octree convolution is dense convolution with zero padding", "statement": "The output of OctreeConv at a node equals the dense 3-D convolution, with zero padding, of the voxelised input (octree2voxel) at the node's coordinates; for stride 2 it is the dense strided convolution at the parent's first child.", "quantifier": "every octree, layer, kernel, stride, nempty, weights, features", "why_tests_cant": "all octrees and tensors", "anchors": ["ocnn/nn/octree_conv.py:OctreeConv", "ocnn/nn/octree2vox.py:octree2voxel"]}
{"id": "C37", "title": "Convolution gradients are exact", "statement": "The hand-written backward pass returns the true gradients: for every upstream gradient g and every perturbation, <g,conv(x+dx,w)-conv(x,w)> = <backward(g,w),dx> and <g,conv(x,w+dw)-conv(x,w)> = <weight_grad(x,g),dw>, for every buffer size.", "quantifier": "all neighbourhood tables, data, weights, gradients, buffer sizes", "why_tests_cant": "numeric gradient checks sample a few directions", "anchors": ["ocnn/nn/octree_conv.py:OctreeConvBase.backward_gemm", "ocnn/nn/octree_conv.py:OctreeConvBase.weight_gemm"]}
{"id": "C38", "title": "Deconvolution is the transpose of convolution", "statement": "OctreeDeconv with weights w is the exact transpose of OctreeConv with the same weights, stride and kernel (also between layers for stride 2), its own backward pass is exact, and buffered and direct methods agree whenever there is at least one row to compute (with none the direct method raises RuntimeError while the buffered one returns).", "quantifier": "all octrees, data, weights", "why_tests_cant": "all tensors", "anchors": ["ocnn/nn/octree_conv.py:OctreeDeconv", "ocnn/nn/octree_conv.py:OctreeDeconvFunction"]}
{"id": "C39", "title": "Depth-wise convolution", "statement": "OctreeDWConv equals OctreeConv with per-channel diagonal weights, independent of max_buffer, and its backward pass is exact.", "quantifier": "all octrees, data, weights, buffer sizes", "why_tests_cant": "all tensors", "anchors": ["ocnn/nn/octree_dwconv.py:OctreeDWConvBase"]}
{"id": "C40", "title": "Group convolution", "statement": "OctreeGroupConv equals one OctreeConv with block-diagonal weights: output group g depends only on input group g.", "quantifier": "all group numbers, octrees, data, weights", "why_tests_cant": "all sizes", "anchors": ["ocnn/nn/octree_gconv.py:OctreeGroupConv"]}
{"id": "C41", "title": "Convolution does not mix batch elements", "statement": "Convolving a merged octree equals concatenating the convolutions of the individual octrees.", "quantifier": "every list of octrees and features", "why_tests_cant": "all batches", "anchors": ["ocnn/nn/octree_conv.py:OctreeConv", "ocnn/octree/octree.py:merge_octrees"]}
{"id": "C42", "title": "Max pooling", "statement": "octree_max_pool returns for every non-empty parent the channel-wise maximum over its (non-empty, if nempty) children, zero for empty parents, with indices of the first maximal child.", "quantifier": "every octree layer and feature tensor", "why_tests_cant": "all data", "anchors": ["ocnn/nn/octree_pool.py:octree_max_pool"]}
{"id": "C43", "title": "Max unpooling", "statement": "octree_max_unpool puts each pooled value back at the child position recorded by octree_max_pool and zero elsewhere, so pooling an unpooled non-negative tensor returns it.", "quantifier": "every octree layer and feature tensor", "why_tests_cant": "all data", "anchors": ["ocnn/nn/octree_pool.py:octree_max_unpool"]}
{"id": "C44", "title": "Pooling never yields -inf", "statement": "With nempty=True max pooling produces only finite values exactly if every non-empty parent has a non-empty child. That holds for every octree built from points and for merges of such octrees, except when pooling from layer full_depth, where a parent without points also counts as non-empty (refuted with a witness); it is also refuted for octrees produced by octree_split/octree_grow.", "quantifier": "every octree", "why_tests_cant": "needs both a proof for all built octrees and a witness", "anchors": ["ocnn/nn/octree_pool.py:octree_max_pool", "ocnn/octree/octree.py:Octree.octree_split"]}
{"id": "C45", "title": "Average pooling", "statement": "octree_avg_pool returns for each row the sum of the existing neighbours' features divided by (their number + 1e-8): never larger in magnitude than the extreme neighbour, zero when there is no neighbour.", "quantifier": "every octree layer, kernel, stride", "why_tests_cant": "all data", "anchors": ["ocnn/nn/octree_pool.py:octree_avg_pool"]}
{"id": "C46", "title": "Average pooling output height", "statement": "With stride 2 and nempty=False octree_avg_pool returns one row per node of the coarser layer, as octree_max_pool and OctreeConv do (refuted: empty coarse nodes are dropped).", "quantifier": "every octree", "why_tests_cant": "the test only pools from a full layer, where the two heights coincide", "anchors": ["ocnn/nn/octree_pool.py:octree_avg_pool"]}
{"id": "C47", "title": "Global pooling", "statement": "octree_global_pool returns per batch element the mean feature of its nodes and zero for an element with no nodes; pooling a merged octree equals stacking the individual results.", "quantifier": "every octree and feature tensor", "why_tests_cant": "all batches, also with empty elements", "anchors": ["ocnn/nn/octree_pool.py:octree_global_pool"]}
{"id": "C48", "title": "Group normalisation is per sample", "statement": "OctreeGroupNorm output for the nodes of one batch element depends only on that element's features; with affine identity the group statistics are mean ~0 and variance <= 1 up to the eps terms; instance norm is the group = channels case.", "quantifier": "every octree and features, all group numbers dividing the channels", "why_tests_cant": "all tensors", "anchors": ["ocnn/nn/octree_norm.py:OctreeGroupNorm", "ocnn/nn/octree_norm.py:OctreeInstanceNorm"]}
{"id": "C49", "title": "Drop path is all-or-nothing per sample", "statement": "For every random draw in [0,1) OctreeDropPath multiplies all rows of a sample by one factor that is either 0 or 1/keep_prob (1 without scaling); in eval mode or with drop_prob<=0 it is the identity; drop_prob=1 gives zero without dividing by zero.", "quantifier": "every random draw, every octree", "why_tests_cant": "all random outcomes", "anchors": ["ocnn/nn/octree_drop.py:OctreeDropPath"]}
{"id": "C50", "title": "octree2voxel places every node", "statement": "vox[b,x,y,z] equals the feature of the node with these coordinates if it exists and 0 otherwise; no two nodes share a voxel; no index error.", "quantifier": "every well-formed octree", "why_tests_cant": "all octrees", "anchors": ["ocnn/nn/octree2vox.py:octree2voxel"]}
{"id": "C51", "title": "Nearest interpolation", "statement": "octree_nearest_pts returns for an in-range query the feature of the node containing it and zero where there is none; with bound_check=True out-of-range queries return zero.", "quantifier": "all octrees, queries, features", "why_tests_cant": "all queries", "anchors": ["ocnn/nn/octree_interp.py:octree_nearest_pts"]}
{"id": "C52", "title": "Nearest upsampling agrees with nearest interpolation", "statement": "octree_nearest_upsample gives every child node its parent's feature, i.e. equals octree_nearest_pts at the children's centres, for both values of nempty, with the right number of rows.", "quantifier": "every well-formed octree, every layer", "why_tests_cant": "two code paths on all octrees", "anchors": ["ocnn/nn/octree_interp.py:octree_nearest_upsample", "ocnn/nn/octree_interp.py:OctreeUpsample"]}
{"id": "C53", "title": "Multi-level upsampling copies the ancestor's feature", "statement": "OctreeUpsample(method='nearest') to any deeper target_depth gives each node the feature of its ancestor at the data's depth; target_depth equal to depth is the identity, smaller is rejected.", "quantifier": "every well-formed octree and pair of depths", "why_tests_cant": "all pairs of depths", "anchors": ["ocnn/nn/octree_interp.py:OctreeUpsample"]}
{"id": "C54", "title": "Linear interpolation is a convex combination", "statement": "With bound_check=True, octree_linear_pts returns the trilinear weights of the existing adjacent cells renormalised (up to the 1e-12 guard): output stays within the range of the contributing features, constants are reproduced up to the guard, and at a cell centre it returns that cell's feature up to the guard.", "quantifier": "all octrees, queries, features", "why_tests_cant": "all queries", "anchors": ["ocnn/nn/octree_interp.py:octree_linear_pts"]}
{"id": "C55", "title": "Linear interpolation without bound check", "statement": "With the default bound_check=False the interpolated value at a point uses only cells adjacent to the point (refuted: near the lower and upper border it mixes in the cell at the opposite border of the volume). OctreeUpsample in linear mode evaluates the linear interpolation at the centres of the nodes of the target depth: at every target node whose neighbouring coarse cells all lie inside the volume the result is the weighted mean of features of adjacent coarse nodes, and near the border it is subject to the same wrap-around.", "quantifier": "all octrees and in-range queries", "why_tests_cant": "border behaviour for all octrees", "anchors": ["ocnn/nn/octree_interp.py:octree_linear_pts", "ocnn/nn/octree_interp.py:OctreeUpsample"]}
{"id": "C56", "title": "Query tensors can be reused", "statement": "Calling OctreeInterp twice with the same query tensor gives the same result (refuted with the default rescale_pts=True: the first call rescales the caller's tensor in place).", "quantifier": "all call histories", "why_tests_cant": "a history property of a shared tensor", "anchors": ["ocnn/nn/octree_interp.py:OctreeInterp.forward"]}
{"id": "C57", "title": "octree_align", "statement": "octree_align returns for each node of the query octree the value of the node with the same key in the source octree and zero if there is none, including keys beyond the last source key.", "quantifier": "all pairs of octrees", "why_tests_cant": "all pairs of octrees", "anchors": ["ocnn/nn/octree_align.py:octree_align", "ocnn/nn/octree_align.py:search_value"]}
{"id": "C58", "title": "Point attributes stay aligned", "statement": "After any sequence of orient_normal, scale, rotate, translate, flip, clip, indexing, normalize and device moves, points, normals, features, labels and batch_id have the same number of rows and row i of features/labels/batch_id still belongs to point i. The constructor accepts exactly attributes with one row per point (the batch index as a column) and keeps them unchanged.", "quantifier": "every finite sequence of operations", "why_tests_cant": "unbounded histories", "anchors": ["ocnn/octree/points.py:Points"]}
{"id": "C59", "title": "Clipping", "statement": "clip(min,max,esp) keeps exactly the points strictly inside (min+esp,max-esp) on all axes, in order, with their attributes, and the returned mask has one entry per original point; afterwards the default clip guarantees build_octree's range precondition; inbox_mask with separate bounds per axis marks exactly the points strictly between the bounds on every axis.", "quantifier": "every cloud", "why_tests_cant": "all clouds", "anchors": ["ocnn/octree/points.py:Points.clip", "ocnn/octree/points.py:Points.inbox_mask"]}
{"id": "C60", "title": "Rotation and translation are rigid", "statement": "rotate preserves distances, norms and orientation of points and normals; translate preserves differences and leaves normals unchanged; for every angle.", "quantifier": "all angles, all points", "why_tests_cant": "real-valued angles", "anchors": ["ocnn/octree/points.py:Points.rotate", "ocnn/octree/points.py:Points.translate"]}
{"id": "C61", "title": "Flip", "statement": "flip negates exactly the named coordinates of points and normals; flipping twice is the identity; unknown axis letters raise KeyError.", "quantifier": "all axis strings, all clouds", "why_tests_cant": "all strings", "anchors": ["ocnn/octree/points.py:Points.flip"]}
{"id": "C62", "title": "Scaling keeps normals perpendicular", "statement": "scale multiplies points by the factor; a normal perpendicular to a tangent direction stays perpendicular to the scaled direction and, for non-uniform factors, gets unit length; a zero factor is rejected.", "quantifier": "all non-zero factors, all clouds", "why_tests_cant": "real-valued factors", "anchors": ["ocnn/octree/points.py:Points.scale"]}
{"id": "C63", "title": "Normal orientation", "statement": "orient_normal(axis) makes the chosen component non-negative and only flips signs of whole normals (length preserved); 'xyz' takes component-wise absolute values.", "quantifier": "all clouds, all axes", "why_tests_cant": "all normals", "anchors": ["ocnn/octree/points.py:Points.orient_normal"]}
{"id": "C64", "title": "Normalisation fits the box", "statement": "normalize(bbmin,bbmax,scale) maps every point of the bounding box strictly inside [-scale,scale], preserving aspect ratio.", "quantifier": "all bounding boxes and points", "why_tests_cant": "all boxes", "anchors": ["ocnn/octree/points.py:Points.normalize", "ocnn/octree/points.py:Points.bbox"]}
{"id": "C65", "title": "Moving and slicing keep the batch bookkeeping", "statement": "to(device) and slicing preserve batch_size and batch_npt (refuted: to() resets batch_size to 1, slicing and clip drop batch_npt).", "quantifier": "all clouds", "why_tests_cant": "needs a witness on batched clouds", "anchors": ["ocnn/octree/points.py:Points.to", "ocnn/octree/points.py:Points.__getitem__"]}
{"id": "C66", "title": "1-D batch ids and to_points", "statement": "Points accepts a batch_id of shape (N,) and Octree.to_points returns the node points (refuted: the constructor indexes dimension 1 before checking the number of dimensions, so every 1-D batch_id, including the one to_points passes, raises IndexError).", "quantifier": "every octree and cloud", "why_tests_cant": "holds (fails) for every input", "anchors": ["ocnn/octree/points.py:Points.check_input", "ocnn/octree/octree.py:Octree.to_points"]}
{"id": "C67", "title": "Encoder-decoder row counts match", "statement": "Along every UNet/ResNet/LeNet-style sequence of stride-2 convolutions, poolings and deconvolutions, each layer's input assertion holds and skip connections have equal heights.", "quantifier": "every well-formed octree, number of stages, nempty", "why_tests_cant": "all octrees and stage counts", "anchors": ["ocnn/models/unet.py:UNet", "ocnn/models/lenet.py:LeNet", "ocnn/nn/octree_conv.py:OctreeConvBase.setup"]}
{"id": "C68", "title": "SegNet with nempty=True", "statement": "SegNet accepts non-empty-only features (refuted: its bottleneck convolution ignores nempty and its shape assertion fails whenever the bottleneck layer has an empty node).", "quantifier": "every octree with an empty node in the bottleneck layer", "why_tests_cant": "must hold for all such octrees", "anchors": ["ocnn/models/segnet.py:SegNet.__init__"]}
{"id": "C69", "title": "Kernel-size lists shared between layers", "statement": "resize_with_last_val mutates the list it receives, including mutable default arguments; nevertheless every layer constructed in any order has the same kernel string as if constructed first.", "quantifier": "every history of layer constructions", "why_tests_cant": "histories are unbounded", "anchors": ["ocnn/utils.py:resize_with_last_val", "ocnn/nn/octree_conv.py:OctreeConvBase.__init__", "ocnn/nn/octree_pool.py:OctreePoolBase"]}
{"id": "C70", "title": "CollateBatch", "statement": "Collating a batch keeps the order of samples for every key, merges octrees and (if requested) points in that order and builds neighbourhoods.", "quantifier": "every batch of samples", "why_tests_cant": "all batches", "anchors": ["ocnn/dataset.py:CollateBatch"]}
{"id": "C71", "title": "get_input_feature layout", "statement": "The channels returned by get_input_feature are, in this fixed order, normals, displacement, local coordinates, global coordinates, features, each present iff its letter is, independent of order and case of the letters; the height is the number of (non-empty) nodes.", "quantifier": "all feature strings and octrees", "why_tests_cant": "all strings", "anchors": ["ocnn/octree/octree.py:Octree.get_input_feature", "ocnn/modules/modules.py:InputFeature"]}
{"id": "C72", "title": "construct_all_neigh for full_depth=0", "statement": "construct_all_neigh works for every octree (refuted for full_depth=0: it starts at depth 1 whose sparse branch needs the never-built depth-0 table).", "quantifier": "every octree", "why_tests_cant": "all octrees with full_depth=0", "anchors": ["ocnn/octree/octree.py:Octree.construct_all_neigh", "ocnn/octree/octree.py:Octree.construct_neigh"]}
{"id": "C73", "title": "Decoder output is a valid octree", "statement": "AutoEncoder.decoder with update_octree=True produces a well-formed octree whose predicted signal has one row per non-empty finest node, for every network (every sequence of logits).", "quantifier": "every network output", "why_tests_cant": "networks are arbitrary functions", "anchors": ["ocnn/models/autoencoder.py:AutoEncoder.decoder"]}
{"id": "C74", "title": "scatter_add conserves mass", "statement": "scatter_add sums every source row into exactly the row named by its index: the total is conserved, rows not named stay as they were, and the order of the source rows does not matter; cumsum(exclusive) starts at 0 and ends with the total.", "quantifier": "all sources and index lists", "why_tests_cant": "all inputs", "anchors": ["ocnn/utils.py:scatter_add", "ocnn/utils.py:cumsum"]}
{"id": "C75", "title": "Range safety of single precision", "statement": "In float32 arithmetic, every point with -1 <= c < 1-2^-24 on each axis gets the key of a cell inside the grid at every depth from 0 to 16 and lies at most 2^-24 outside that cell; rounding preserves the order of points along an axis; on the grid of step 2^-23 the keys equal those of exact arithmetic. The largest float32 below 1 (1-2^-24) is rounded to 1 and wraps to the opposite cell (refutation of the half-open range in float32).", "quantifier": "every finite float32 coordinate in [-1,1], every depth 0..16, every batch index", "why_tests_cant": "2^32 floats; rounding", "anchors": ["ocnn/octree/octree.py:Octree.build_octree"]}
{"id": "C76", "title": "Example octree", "statement": "build_example_octree returns the well-formed octree built from the first n points of its fixed three-point cloud (with their normals, features and labels), of the requested depth and full_depth, for every depth up to 16, every full_depth up to the depth and one to three points, and rejects other point counts.", "quantifier": "every depth up to 16, every full_depth up to depth, every number of points", "why_tests_cant": "all depths and full depths", "anchors": ["ocnn/utils.py:build_example_octree"]}
{"id": "C77", "title": "Transform", "statement": "For every sample with one normal per point and every accepted draw of the augmentation, Transform returns exactly the augmented points that lie strictly inside the clipped box with their own normals, a mask with one entry per input point marking them, and a well-formed octree built from them; every other entry of the sample is passed on unchanged.", "quantifier": "every sample, configuration and random draw", "why_tests_cant": "random augmentation over arbitrary clouds", "anchors": ["ocnn/dataset.py:Transform"]}
{"id": "C78", "title": "Data loading pipeline", "statement": "Transforming the samples one by one and collating them with merge_points gives an octree that is the one built directly from the collated points (with neighbourhoods constructed), so row b of the batch always refers to sample b in points and octree alike.", "quantifier": "every list of samples and draws", "why_tests_cant": "all batches and draws", "anchors": ["ocnn/dataset.py:Transform", "ocnn/dataset.py:CollateBatch"]}
{"id": "C79", "title": "Evaluation of a network is batch invariant", "statement": "In evaluation mode (batch normalisation with running statistics, dropout off) every network gives each sample the result it would get alone: for octrees merged by merge_octrees, Octree.get_input_feature, UNet, SegNet, LeNet, ResNet, HRNet and AutoEncoder (on given octrees) applied to the merged octree return the concatenation, in the order of the members, of what they return on the members; query points get the member's number as batch index.", "quantifier": "Every non-empty list of octrees that can be merged (members may be empty clouds), all parameter values, configurations, features and query points.", "why_tests_cant": "Tests run one batch of example models with fixed weights; the claim is about every batch composition, depth and weight.", "anchors": ["ocnn/octree/octree.py:merge_octrees", "ocnn/octree/octree.py:Octree.get_input_feature", "ocnn/models/unet.py:UNet", "ocnn/models/segnet.py:SegNet", "ocnn/models/lenet.py:LeNet", "ocnn/models/resnet.py:ResNet", "ocnn/models/hrnet.py:HRNet", "ocnn/models/autoencoder.py:AutoEncoder"]}
{"id": "C80", "title": "Decoding shape codes is batch invariant", "statement": "AutoEncoder.decode_code applied to the shape codes of several samples stacked in a batch generates for each sample the octree, logits and signal it generates for that sample alone.", "quantifier": "Every list of shape codes, all parameter values in evaluation mode, all depths.", "why_tests_cant": "The octree grows during decoding depending on the predicted splits of all samples; a test sees one pattern of splits.", "anchors": ["ocnn/models/autoencoder.py:AutoEncoder.decode_code", "ocnn/octree/octree.py:Octree.octree_split", "ocnn/octree/octree.py:Octree.octree_grow", "ocnn/octree/octree.py:init_octree"]}
{"id": "C81", "title": "Moving an octree to another device", "statement": "Octree.to (and cuda, cpu) returns an octree that differs from the original in its device only: all parameters, tensors and counters are the same, it is well formed if the original is, moving back gives the original, and computing neighbourhoods or merging commutes with the move. On another device the result is an independent copy: it shares no storage with the original and in-place changes of one are never seen through the other; on the same device the result is the octree itself.", "quantifier": "Every octree, every device, every later in-place write.", "why_tests_cant": "All octrees and all later writes; tests run on one device.", "anchors": ["ocnn/octree/octree.py:Octree.to", "ocnn/octree/octree.py:Octree.cuda", "ocnn/octree/octree.py:Octree.cpu"]}
{"id": "C82", "title": "Generation agrees with teacher forcing", "statement": "Growing an octree from a shape code with AutoEncoder.decode_code and running the decoder on a given octree with the same nodes agree: the decoder run without update on the octree that decode_code has just grown (or on any octree with the same nodes) returns the logits and signals of the generation; and if the logits computed on a given octree predict every one of its nodes correctly, decode_code grows exactly that octree, with the same logits and signals, from the code alone.", "quantifier": "All configurations, parameter values, code tensors and batch sizes; all well-formed octrees of the right depth.", "why_tests_cant": "The two runs read octrees in different states (half grown against complete); equality for one code and one set of weights says nothing about the others.", "anchors": ["ocnn/models/autoencoder.py:AutoEncoder.ae_decoder", "ocnn/models/autoencoder.py:AutoEncoder.decode_code", "ocnn/octree/octree.py:Octree.octree_split", "ocnn/octree/octree.py:Octree.octree_grow"]}
{"id": "C83", "title": "Segmentation metrics", "statement": "SegSolver.accuracy is the share of points whose predicted class (first maximum of the logits) is their label, and is 1 only if all predictions are right. IoU_per_shape returns for every class the numbers of points in the intersection and union, and the mean IoU over the classes that occur among the labels, in [0,1) and within the guard of 1 for perfect predictions. Neither depends on the order of the points. The part mIoU of result_callback is the mean IoU of the classes above LOSS.mask over all test points together, however they were batched; it raises for LOSS.mask below -1 or if no class is left.", "quantifier": "all logits, labels, class counts and partitions of the test set into batches", "why_tests_cant": "all inputs and all ways of batching", "anchors": ["projects/segmentation.py:SegSolver.accuracy", "projects/segmentation.py:SegSolver.IoU_per_shape", "projects/segmentation.py:SegSolver.result_callback"]}
{"id": "C84", "title": "Votes of repeated evaluation", "statement": "After any sequence of evaluation batches (several epochs, any grouping and order of samples) the accumulated result of a file holds for each of its points the sum of the softmax rows predicted for it in the samples of that file; clipped points contribute nothing, other files are not affected, and evaluation does not raise (refuted when a point carries a label that LOSS.mask filters out: torch.split then raises).", "quantifier": "all sequences of batches, masks and file names", "why_tests_cant": "histories of batches", "anchors": ["projects/segmentation.py:SegSolver.eval_step", "projects/segmentation.py:SegSolver.model_forward"]}
{"id": "C85", "title": "Points generated from a decoded octree", "statement": "AutoEncoderSolver.octree2pts returns for every sample one oriented point per non-empty node of the finest depth, in node order, at the cell centre displaced along the normalised normal by the predicted number of cell edges; it never raises on an octree produced by the decoder. A displacement of at most r edges keeps the point within r edges of the cell centre on each axis, and the displacement feature of an averaged point recovers the plane through that point.", "quantifier": "all decoded octrees, signals and normalisations", "why_tests_cant": "all octrees and signals", "anchors": ["projects/autoencoder.py:AutoEncoderSolver.octree2pts", "ocnn/octree/octree.py:Octree.xyzb"]}
{"id": "C86", "title": "Merging predictions of chunks", "statement": "generate_output_seg writes for every point of every scene the raw class id whose summed score over the whole-scene file and all chunks of the scene that contain the point is largest (refuted for chunk numbers of two digits, which are credited to a scene of another name).", "quantifier": "all file lists, chunk masks and scores", "why_tests_cant": "all groupings of chunks", "anchors": ["projects/tools/seg_scannet.py:generate_output_seg"]}
{"id": "C87", "title": "Cutting scenes into chunks", "statement": "generate_chunks leaves a scene whole exactly if its bounding box is smaller than the crop size on every axis; otherwise each saved mask marks exactly the points in one box of a regular grid starting at the minimum corner and holds at least min_size points, and every point lies in a box of the grid, which is saved if it holds enough points (refuted for scenes with negative coordinates, whose far points are in no box).", "quantifier": "all point clouds, crop sizes and strides", "why_tests_cant": "all clouds", "anchors": ["projects/tools/seg_scannet.py:generate_chunks"]}
{"id": "C88", "title": "Label tables", "statement": "The ScanNet tables map every raw label below 2048 to its index in the class list (0 if absent) and the inverse table maps predictions back to the raw label; the SemanticKITTI table maps the lower 16 bits of every label to one of the 19 classes of the benchmark, moving variants with their static class, and everything else to 0; labels from 260 raise.", "quantifier": "all label arrays, both class lists", "why_tests_cant": "all labels including instance bits", "anchors": ["projects/tools/seg_scannet.py:label_dict", "projects/tools/seg_scannet.py:ilabel_dict", "projects/datascts/semantic_kitti.py:get_label_map", "projects/datascts/semantic_kitti.py:KittiTransform"]}
{"id": "C89", "title": "Random augmentation parameters", "statement": "Every draw of the training transform is admissible: each rotation angle is a multiple of its interval within the configured range, scale and jitter lie within their configured bounds (the same on all axes if uniform), only configured axes flip; with scale below one the transform accepts every draw; with all settings zero nothing changes; drawing raises exactly for a zero interval or an angle and interval of opposite signs.", "quantifier": "all configurations and all values the random generators may return", "why_tests_cant": "all generator outputs", "anchors": ["ocnn/dataset.py:Transform.rnd_parameters", "ocnn/dataset.py:Transform.transform"]}
{"id": "C90", "title": "Shapes from images", "statement": "For every image encoder of the right width, generation returns one octree per image decoded from that image's 8^full codes, complete to the network's depth, splitting exactly where the logits ask, with node signals of the output width stored at the finest layer; with a given octree it is returned unchanged with one row of logits per node; called with the image only, as the default arguments allow, it always raises.", "quantifier": "all encoders, weights, batches of images, octrees", "why_tests_cant": "all weights and octree shapes", "anchors": ["ocnn/models/image2shape.py:Image2Shape"]}
{"id": "C91", "title": "Loss of the auto-encoder", "statement": "The training loss is the sum over all depths of the mean cross entropy against the octree's occupancy plus the mean squared error of the node signals, never nan on octrees without empty layers; accuracies lie between 0 and 1; if all accuracies are 1, generation from the code reproduces the octree exactly, and with regression loss 0 also its signals.", "quantifier": "all weights, octrees and configurations", "why_tests_cant": "relates training and generation for all weights and octrees", "anchors": ["projects/autoencoder.py:AutoEncoderSolver.compute_loss", "ocnn/models/autoencoder.py:AutoEncoder.forward"]}
{"id": "C92", "title": "Point cloud methods change only their own cloud", "statement": "In every program of method calls and merges on point clouds, with exceptions caught, each call changes what its own cloud reads as and nothing else: neither another cloud nor a tensor of the caller. Slicing, moving to another device and merging return independent clouds, and after rotate or clip a cloud is independent of the tensors it was built from.", "quantifier": "all programs of calls on any number of clouds, all sharing patterns of tensors", "why_tests_cant": "depends on the whole history of calls and on which objects share tensors", "anchors": ["ocnn/octree/points.py:Points", "ocnn/octree/points.py:merge_points"]}
{"id": "C93", "title": "Samples of the datasets", "statement": "The transforms of SemanticKITTI, ShapeNet segmentation, the auto-encoder, completion and ScanNet return the input moved and scaled as documented (about the middle of its bounding box, or divided by the scale), augmented if asked, with exactly the points outside (-0.99, 0.99)^3 cut off together with their normals, features and labels, and the octree of the remaining points; shapes that fit the documented size lose no point, and the target of completion never does.", "quantifier": "all clouds, labels, flags and random draws", "why_tests_cant": "holds for all clouds and draws; the sizes that lose no point are exact bounds", "anchors": ["projects/datascts/semantic_kitti.py:KittiTransform", "projects/datascts/seg_shapenet.py:ShapeNetTransform", "projects/datascts/ae_shapenet.py:ShapeNetTransform", "projects/datascts/completion.py:Transform", "projects/datascts/scannet.py:ScanNetTransform"]}
{"id": "C94", "title": "Colour augmentation", "statement": "The colour augmentation of ScanNet blends each channel with its position between the smallest and largest value, then adds a shift and noise, keeping values between 0 and 1; every colour stays a number.", "quantifier": "all colours and random draws", "why_tests_cant": "range and formula for all colours and draws", "anchors": ["projects/datascts/scannet.py:color_distort"]}
{"id": "C95", "title": "Elastic distortion", "statement": "The elastic distortion moves each point by the magnitude times the trilinear value at the point of twice smoothed noise on a grid that always covers the cloud; points at the same place move together, no point moves farther than the largest noise times the sum of the magnitudes, and with probability 0.05 nothing moves.", "quantifier": "all clouds, noise fields, granularities and magnitudes", "why_tests_cant": "holds for all clouds and all noise; no point may fall outside of the grid", "anchors": ["projects/datascts/scannet.py:elastic_distort"]}
{"id": "C96", "title": "Completion network", "statement": "An OUNet can be constructed from its documented arguments; its decoder, given the encoder's features, returns one row of logits per node of the output octree and one signal per non-empty node, and uses the features of an input node exactly at the output node with the same cell; without an output octree it grows a well-formed one that follows its own predictions, and run again on that octree it gives the same logits and signals.", "quantifier": "all arguments, weights, input and output octrees", "why_tests_cant": "the code has no test that constructs the class; the decoder must work for all pairs of octrees", "anchors": ["ocnn/models/ounet.py:OUNet", "projects/completion.py:CompletionSolver.get_model"]}
{"id": "C97", "title": "Cleaning up checkpoints keeps one file per folder and survives interruptions", "statement": "A complete run of the checkpoint clean-up leaves in every checkpoint folder exactly its second last file by name (the only file if there is one, nothing if there is none). If any number of runs are interrupted at any point, a complete run afterwards leaves exactly the same files.", "quantifier": "all contents of all checkpoint folders, all orders in which they are listed, all sequences of interrupted runs and all points of interruption", "why_tests_cant": "A test interrupts at a few points of a few folders; the deletions are irreversible, and the file kept after a restart is computed from what the interrupted run left.", "anchors": ["projects/tools/cleanup_ckpt.py"]}
{"id": "C98", "title": "Preparing ScanNet can be interrupted and resumed", "statement": "A complete run of the preparation writes the output and the labels of every scene that has no output yet and touches no other file; runs that are interrupted and started again end with the same files as one uninterrupted run.", "quantifier": "all lists of scenes, all sequences of interrupted runs and all points of interruption", "why_tests_cant": "The property ranges over all points at which a process can be killed, including the middle of a write.", "anchors": ["projects/tools/seg_scannet.py: process_scannet"]}
{"id": "C99", "title": "Preparing ModelNet40 can be interrupted and resumed", "statement": "Extracting the archive, with any interruptions, finally leaves every member whole. Cleaning the mesh files inserts the missing line break after OFF, changes nothing else, does nothing on files that are in order or are no OFF files, and gives the same result after interruptions.", "quantifier": "all archives, all mesh files and contents, all sequences of interrupted runs and all points of interruption", "why_tests_cant": "The property ranges over all points at which a process can be killed, and over all texts.", "anchors": ["projects/tools/cls_modelnet.py: download_m40, _clean_off_file, convert_mesh_to_points"]}
{"id": "C100", "title": "Scores of a ScanNet evaluation", "statement": "The printed IoU is the mean over all classes of intersection over union of all labelled points of all files together, in [0, 1); the printed accuracy is the mean over the files of the share of labelled points predicted right, in [0, 1], nan if a file has no labelled point; predictions at points without a label of the benchmark do not matter. If all labelled points are right the accuracy is 1 and the IoU is (up to 1e-10) the share of classes that occur.", "quantifier": "all lists of files with predictions and labels of equal length, all lists of classes", "why_tests_cant": "A test compares numbers for a few files; the statement is about all files and all distributions of classes over them.", "anchors": ["projects/tools/seg_scannet.py: calc_iou"]}
{"id": "C101", "title": "Labels of the points with 200 classes", "statement": "Every point gets the class of the last segment group that contains its segment: the id in the first row of the label table with the name of the group, if it is one of the 200 classes, and 0 otherwise; all labels are in the benchmark and the table of new labels maps them to their numbers without an error.", "quantifier": "all label tables, segmentations and groups (also overlapping ones)", "why_tests_cant": "Overlapping groups, repeated names and missing names have to be right in all combinations.", "anchors": ["projects/tools/seg_scannet.py: generate_point_labels200, label_dict"]}
{"id": "C102", "title": "Normals of a mesh", "statement": "The normal of a vertex is the area-weighted sum of the normals of its faces, scaled to a length below 1; a face with a missing corner raises an IndexError; alignment by a rotation and a shift keeps distances and turns the normals with the mesh; the order of the faces and their first corners do not matter; turning all faces over turns the normals over.", "quantifier": "all meshes, rotations and shifts, real coordinates", "why_tests_cant": "The statements are about all meshes and all rotations.", "anchors": ["projects/tools/seg_scannet.py: face_normal, vertex_normal, align_to_axis"]}
{"id": "C103", "title": "Octrees built by the data loader or by the training step give the same batch", "statement": "For clouds that merge_points can join, SegSolver.process_batch gives the same batch whether the samples come with the octrees of their clouds (merged and connected by CollateBatch, then moved to the GPU) or only with the clouds (moved, then built, merged and connected in the step): the same octree, the same merged cloud up to batch_size, the other entries untouched; model_forward returns the same logits and labels for both.", "quantifier": "all lists of 1..32768 single clouds that can be merged, depths 1..16, full depths, devices, further entries of the batch, networks and feature strings", "why_tests_cant": "which of the two paths is taken is a configuration; the equality has to hold for every dataset and batch size and on machines with and without a GPU", "anchors": ["projects/segmentation.py:SegSolver.process_batch", "projects/segmentation.py:SegSolver.model_forward", "ocnn/dataset.py:CollateBatch", "ocnn/octree/points.py:Points.to", "ocnn/octree/octree.py:Octree.to"]}
{"id": "C104", "title": "A segmentation step treats every cloud of a batch as if it were alone", "statement": "From raw clouds to masked logits: collating several labelled clouds, building and merging their octrees, computing the input features, running UNet or SegNet in evaluation mode on the query points and dropping the points with ignored labels gives exactly the rows and labels that the same step gives for the clouds one by one, in order.", "quantifier": "all lists of 1..32768 clouds (empty ones included) with one label per point and the attributes the feature string asks for, depths up to 16, all weights, all UNet configurations with fewer stages than the depth, all label thresholds", "why_tests_cant": "batch independence has to hold for every combination of clouds and weights; a test compares a few", "anchors": ["projects/segmentation.py:SegSolver.process_batch", "projects/segmentation.py:SegSolver.model_forward", "ocnn/models/unet.py:UNet", "ocnn/models/segnet.py:SegNet", "ocnn/modules/modules.py:InputFeature"]}
{"id": "C105", "title": "Loss and accuracy of a classification batch are the means over its samples", "statement": "ClsSolver.forward in evaluation mode on a collated batch returns as loss and accuracy the arithmetic means of the losses and accuracies that it returns for every sample alone, for LeNet, ResNet and HRNet.", "quantifier": "all lists of 1..32768 clouds with class labels and the attributes the feature string asks for, depths up to 16, all weights and all per-row loss functions", "why_tests_cant": "has to hold for every batch composition and all weights", "anchors": ["projects/classification.py:ClsSolver.forward", "ocnn/models/lenet.py:LeNet", "ocnn/models/resnet.py:ResNet", "ocnn/models/hrnet.py:HRNet", "ocnn/dataset.py:CollateBatch"]}
{"id": "C106", "title": "Saved clouds hold what was asked for", "statement": "Points.save writes to an npz archive, under its own name and once, exactly each attribute that the argument info asks for and the cloud has; to an xyz file it writes one line per point with those attributes in the order of the letters, each number rounded to six decimals. An unknown letter raises KeyError, another file name ValueError, and an xyz file with nothing to write ValueError. The reader of the projects gets points, normals and labels back from the archive in 32-bit precision and raises KeyError for what was not saved.", "quantifier": "every cloud, every file name, every information string and every combination of reader flags", "why_tests_cant": "the letters, their order and repetition, the absent attributes and the reader flags combine without bound; a test saves a handful of clouds", "anchors": ["ocnn/octree/points.py: Points.save", "projects/datascts/utils.py: ReadNpz, ReadFile"]}
{"id": "C107", "title": "ply files are read back as written", "statement": "What save_points_to_ply writes into a folder is read back by ReadPly and ReadFile: points and normals in 32-bit precision, colors and labels from 0 to 255 unchanged; the folder is created if it is missing; asking for a column that was not written raises ValueError; label vectors, arrays of different heights and rows of the wrong length are rejected. A ShapeNet text file of at least two points becomes a ply file from which points, normals and part numbers within the category are read; each of the 50 part labels belongs to exactly one category.", "quantifier": "every number of points, all combinations of optional arrays, all reader flags, every category and every label", "why_tests_cant": "the column layout depends on which arrays are given; a misplaced column shows only for some combinations of writer and reader flags and for some values", "anchors": ["projects/tools/utils.py: save_points_to_ply", "projects/datascts/utils.py: ReadPly, ReadFile", "projects/datascts/modelnet40.py: read_file", "projects/tools/seg_shapenet.py: txt_to_ply, seg_num, dis"]}
{"id": "C108", "title": "File lists do not depend on the order of directory listings", "statement": "The lists of ModelNet40 go through the categories and files in alphabetical order whatever order the system lists them in; the label is the number of the category; the list for a smaller ratio is contained in that for a larger one; ratio 1 lists every file and every positive ratio represents each category; a root folder without 40 entries is rejected. The lists of image2shape take the first four fifths, rounded down, of the shapes with both an image and a point cloud for training and the rest for testing, each once. The lists of SemanticKITTI put every scan of the sequences into exactly one of train, val and test, and train_val is train followed by val.", "quantifier": "every content and order of the folders, every suffix and ratio up to 1", "why_tests_cant": "the order of a directory listing is up to the file system, and the sizes of the categories are arbitrary", "anchors": ["projects/tools/cls_modelnet.py: get_filelist", "projects/tools/image2shape.py: create_filelist", "projects/tools/seg_kitti.py: generate_file_list"]}
{"id": "C109", "title": "ShapeNet shapes are listed for their own category", "statement": "generate_filelist of seg_shapenet lists each shape exactly for its own category, with the number of the category, in the order of the given lists, training before validation, provided that no line contains the code of another category.", "quantifier": "all lists of lines of the form shape_data/code/name", "why_tests_cant": "the names are arbitrary; a substring test goes wrong only for names that contain another code", "anchors": ["projects/tools/seg_shapenet.py: generate_filelist"]}
{"id": "C110", "title": "Layers and classifier see a shape, not its place in the grid", "statement": "Move every sample of a batch by its own whole number of cells of layer e (or mirror the grid, or exchange axes, with 3x3x3 kernels turned accordingly). Then OctreeConv of stride 1 and OctreeMaxPool return, at every moved node, what they return at the original node, and OctreeGlobalPool returns the same rows: with nempty=True on the layers from e on, with nempty=False on the deeper ones. Hence ResNet in evaluation mode gives the same scores if it pools no further than layer e (layer e+1 with nempty=False). Starting from clouds: building, construct_all_neigh, the input features without 'P', and ResNet give the same scores for a cloud translated by whole cells of layer e, as long as the translated points stay in the cube.", "quantifier": "all octrees and moved octrees, all motions composed of translations, mirror images and exchanges of axes, all features, weights, kernels, batch sizes, depths, numbers of stages and blocks, all clouds and translations by whole cells", "why_tests_cant": "Key order, hence row order, child pointers and neighbour tables all change under a motion; a test compares a few shapes at a few places, not every motion of every octree.", "anchors": ["ocnn/nn/octree_conv.py:OctreeConv", "ocnn/nn/octree_pool.py:octree_max_pool", "ocnn/nn/octree_pool.py:octree_global_pool", "ocnn/models/resnet.py:ResNet.forward", "ocnn/octree/octree.py:Octree.build_octree", "ocnn/octree/octree.py:Octree.get_input_feature"]}
{"id": "C111", "title": "The nodes of an octree depend on the occupied cells only", "statement": "Building octrees of depth D' <= D (same full_depth) from one cloud gives the same keys, children and node counts in every layer up to D', and the node of each point in the shallow octree is the ancestor of its node in the deep one. Two clouds that occupy the same cells of layer D' (whatever the number, order and exact position of the points) give the same nodes and the same neighbour tables up to D'. Adding points never removes a node.", "quantifier": "all clouds in the cube, all depths, full depths and batch sizes, all pairs of clouds occupying the same cells, all layers", "why_tests_cant": "A coarse layer is found by repeated division and de-duplication of keys; a test compares a few clouds at a few depths.", "anchors": ["ocnn/octree/octree.py:Octree.build_octree", "ocnn/octree/octree.py:Octree.construct_all_neigh"]}
{"id": "C112", "title": "UNet labels the points of a moved shape as before", "statement": "Convolutions and transposed convolutions of stride 1 and 2 and the interpolation of node features at query points commute with moving each sample by whole cells of a layer e. Hence, if the coarsest layer of UNet is at e or finer, then building the octree of a cloud, reading off features without absolute positions, and asking the network in evaluation mode for the scores of query points gives the same scores for the moved cloud at the moved query points, row by row.", "quantifier": "all clouds and batches, all vectors per sample that keep the points in the box, all depths, kernels, weights, biases, network configurations, query points (for linear interpolation: half a cell away from the border of the box), features on the non-empty or on all nodes", "why_tests_cant": "A test compares two placements of one shape; an index shifted at a particular octant, parity or layer boundary only shows for placements that cross it.", "anchors": ["ocnn/nn/octree_conv.py: OctreeConv, OctreeDeconv", "ocnn/nn/octree_interp.py: octree_nearest_pts, octree_linear_pts, OctreeInterp", "ocnn/models/unet.py: UNet.forward", "ocnn/octree/octree.py: Octree.build_octree, Octree.get_input_feature"]}
{"id": "C113", "title": "Upgrading a checkpoint keeps every weight", "statement": "upgrade_ckpt.py turns every entry of an old checkpoint into one entry of the new one: convolution weights (out, in, cell) become (cell, in, out) with the same numbers (8 cells if the name contains downsample or upsample, else 27), 1x1 weights lose their last dimension, names are changed by replacing text as documented, everything else is copied; if the new names differ, the new checkpoint holds exactly these entries in the old order, and if an entry does not fit no file is written. parse_ckpt.py lists, numbered in order, exactly the entries whose name contains none of the given texts, with the right total.", "quantifier": "all checkpoints (names, shapes, numbers), all lists of texts to skip", "why_tests_cant": "A wrong index order or a name that is replaced at the wrong place yields a file that loads; it shows only for shapes with equal products or for particular names.", "anchors": ["projects/tools/upgrade_ckpt.py", "projects/tools/parse_ckpt.py: list_var"]}
{"id": "C114", "title": "Image and points of a sample belong to the same shape", "statement": "For a sample of the image-to-shape data set stored below a folder points.ply or points.npz, the reader takes the points from that file with the suffix of the file type and the image number 0-23 from the folder renderings beside it, under the same relative name; an unknown file type raises ValueError.", "quantifier": "all folder and file names (that do not contain the folder name points.ply / points.npz a second time), all random numbers", "why_tests_cant": "The image path is made by replacing text in the path of the points; a test uses one path.", "anchors": ["projects/datascts/image2shape.py: ReadPoints, ReadFile", "projects/configs/image2shape.yaml"]}
{"id": "C115", "title": "HRNet and SegNet give a moved shape the same scores", "statement": "Max pooling that records which child held the maximum, unpooling with the recorded children and nearest upsampling commute with moving each sample by whole cells of a layer e: the recorded children are the same. Hence, from a point cloud to the scores in evaluation mode and with features other than absolute positions, HRNet (which pools to layer 2) gives a cloud moved by cells of layer 2 or coarser the same class scores, and SegNet with features of all nodes gives the moved query points of the moved cloud the same scores.", "quantifier": "all clouds and batches, all moves that stay inside the box (a different one per sample), all depths, stages, channels, weights, both nempty settings for everything except SegNet", "why_tests_cant": "Rows are reordered by the move, and the nets combine layers by tables of indices; a test moves a few shapes with one set of weights.", "anchors": ["ocnn/nn/octree_pool.py: OctreeMaxPool, OctreeMaxUnpool", "ocnn/nn/octree_interp.py: octree_nearest_pts, OctreeUpsample", "ocnn/models/hrnet.py: HRNet", "ocnn/models/segnet.py: SegNet"]}
{"id": "C116", "title": "Training sees a shape, not its place in the grid", "statement": "Batch normalisation in training mode uses the mean and the variance over all rows of a tensor, so it does not depend on the order of the rows. Hence moving each sample of a batch by whole cells leaves the scores of ResNet, UNet, HRNet and SegNet (the last with features of all nodes) unchanged in training mode, too, with dropout on or off, as long as every normalised tensor has at least two rows (torch rejects one row).", "quantifier": "all clouds and batches, all moves that stay inside the box, all depths, stages, channels, weights, dropout masks", "why_tests_cant": "The batch statistics mix all nodes of all samples, and a move reorders the rows of every layer in a different way; tests run a few shapes.", "anchors": ["ocnn/modules/modules.py: OctreeConvBnRelu, Conv1x1BnRelu, FcBnRelu", "ocnn/models/resnet.py: ResNet", "ocnn/models/unet.py: UNet", "ocnn/models/hrnet.py: HRNet", "ocnn/models/segnet.py: SegNet"]}
{"id": "C117", "title": "The order of the samples in a batch only reorders the results", "statement": "Merging the same octrees in another order and passing the features and query points of the samples in that order gives the same scores, reordered in the same way: sample i, now at place sigma(i), gets in row (or block of rows) sigma(i) exactly the scores it had in row (or block) i. This holds for ResNet, HRNet, UNet and SegNet (the last with features of all nodes), in evaluation mode and in training mode, where batch normalisation mixes all samples of the batch.", "quantifier": "all lists of octrees that can be merged, all permutations of them, all feature tensors, query points, depths, stages, channels, weights, dropout masks that follow the samples", "why_tests_cant": "There are n! orders of n samples and the rows of every layer move in a different way; in training mode no sample can be checked on its own, because its scores depend on the whole batch.", "anchors": ["ocnn/octree/octree.py: merge_octrees", "ocnn/dataset.py: CollateBatch", "ocnn/models/resnet.py: ResNet", "ocnn/models/hrnet.py: HRNet", "ocnn/models/unet.py: UNet", "ocnn/models/segnet.py: SegNet"]}
{"id": "C118", "title": "Gradients of a batch are the gradients of its samples", "statement": "The backward pass of a convolution, depth-wise convolution or transposed convolution of a batch of merged octrees gives, as gradient of the features, the gradients of the samples one after the other, and, as gradient of each weight, the sum over the samples of the gradients that the samples alone would give.", "quantifier": "all octrees that can be merged, all depths, kernel shapes, strides 1 and 2, features of all or of the non-empty nodes, channels, weights, features and incoming gradients", "why_tests_cant": "The rows of a batch are numbered anew, and every tap of every kernel reads through renumbered neighbour tables of all samples; a leak between samples shows only for particular neighbourhoods and batch compositions.", "anchors": ["ocnn/nn/octree_conv.py: OctreeConvFunction.backward", "ocnn/nn/octree_conv.py: OctreeDeconvFunction.backward", "ocnn/nn/octree_dwconv.py: OctreeDWConvFunction.backward", "ocnn/octree/octree.py: merge_octrees"]}
{"id": "C119", "title": "Gradients of a moved shape are the moved gradients", "statement": "If a shape is moved by whole cells, mirrored, or its axes are exchanged (and the samples are renumbered), and features, incoming gradients and kernel weights are moved and turned accordingly, then the backward pass of a convolution, depth-wise convolution or transposed convolution gives the moved gradient of the features and the turned gradient of the weights. For stride 2 this holds for the motions that keep the first child of a cell first (shifts and exchanges of axes, not mirror images). The forward pass of the transposed convolution of stride 1 moves as well.", "quantifier": "all motions of the grid, all octrees and moved octrees, depths, kernel shapes, channels, weights, features and incoming gradients", "why_tests_cant": "Node numbers, neighbour tables and the order of rows change with every motion; equivariance must hold for each of them and for all weights.", "anchors": ["ocnn/nn/octree_conv.py: OctreeConvFunction.backward", "ocnn/nn/octree_conv.py: OctreeDeconvFunction", "ocnn/nn/octree_dwconv.py: OctreeDWConvFunction.backward"]}
{"id": "C120", "title": "The ShapeNet benchmark reports each run's result in its place", "statement": "The benchmark script runs one training for every ratio and category, with that category's file lists, number of parts and log folder, and with between one and all of the training shapes (all of them, for all epochs, if the ratio is 1). Its summary has one row per ratio, the last first, with the test mIoU that the log of each of the ratio's runs ends with, in the order of the categories, their mean, and their mean weighted by the numbers of test shapes. Its tables of categories and parts are those the data is prepared with.", "quantifier": "all lists of ratios, command-line arguments, earlier files and results of the runs", "why_tests_cant": "A full run trains 16 networks per ratio for days; results are passed through files whose names depend on the arguments, so a result in the wrong place needs particular ratios or names.", "anchors": ["projects/scripts/run_seg_shapenet.py", "projects/tools/seg_shapenet.py: categories, seg_num"]}
{"id": "C121", "title": "Segmentation scores depend only on the scene near the query point", "statement": "Two scenes that have the same points, with the same normals and features, within the network's reach around a query point get the same scores at this point, whatever else they contain, and wherever the point stands among the query points. The reach of UNet is a number of finest cells computed from its numbers of blocks and stages. The same for a convolution or transposed convolution of stride 1 or 2 (a row depends only on the rows of the cells the kernel covers), for the interpolation at a point (the node of its cell and, if linear, those around), and for the nodes of octrees built from clouds that occupy the same cells near a place.", "quantifier": "all pairs of clouds, octree sizes, batches, network configurations, weights, feature strings, query points, with the layers in evaluation mode", "why_tests_cant": "It compares the results on two arbitrary scenes; a leak of far-away data (through a wrong neighbour, a shared buffer or a wrong row) shows only for particular scenes.", "anchors": ["ocnn/models/unet.py: UNet", "ocnn/nn/octree_conv.py: OctreeConv, OctreeDeconv", "ocnn/nn/octree_interp.py", "ocnn/octree/octree.py: Octree.build_octree, construct_all_neigh, get_input_feature"]}
{"id": "C122", "title": "The points stored by an octree in single precision", "statement": "Computed in single precision, build_octree stores one finite point for each occupied cell of the last layer. The point of a cell that holds n points of the cloud lies in this cell if n * 2^depth <= 2^24, in whatever order the points are added, and it is within (2^j + 2) * 2^-24 of the exact mean if n <= 2^j. The local coordinates that get_input_feature derives from it lie in [-1/2, 1/2) and are the position in the cell up to 2^-26; the global ones lie in [-1, 1], within 2^-23 of the exact values.", "quantifier": "all clouds of float32 points with -1 <= c < 1 - 2^-24, all batches, depths 0 to 16, all numbers of points per cell within the limit", "why_tests_cant": "Rounding errors depend on the values, the number and the order of the points; a test sees a few of the roundings.", "anchors": ["ocnn/octree/octree.py: Octree.build_octree, get_input_feature", "ocnn/utils.py: scatter_add"]}
{"id": "C123", "title": "A checkpoint determines what a network computes", "statement": "The output of UNet, LeNet, ResNet, SegNet, HRNet and the AutoEncoder (and whether the call raises) depends on the learned values only through the tensors which the constructor registers, with their names and shapes; the encoder and the decoder of the AutoEncoder depend only on their own tensors, and so do Image2Shape (for any image encoder) and the decoder of OUNet. No two modules of a network share a tensor: the names are distinct.", "quantifier": "all configurations, numbers of stages and blocks, channels, all octrees, inputs, depths and queries, all pairs of models that agree on the registered tensors", "why_tests_cant": "A test compares two models on a few inputs; whether an entry outside the registered tensors, or the tensor of another module, is ever read depends on the configuration and the octree.", "anchors": ["ocnn/models/unet.py: UNet", "ocnn/models/lenet.py: LeNet", "ocnn/models/resnet.py: ResNet", "ocnn/models/segnet.py: SegNet", "ocnn/models/hrnet.py: HRNet", "ocnn/models/autoencoder.py: AutoEncoder", "ocnn/modules/resblocks.py: OctreeResBlocks", "ocnn/models/image2shape.py: Image2Shape", "ocnn/models/ounet.py: OUNet.decoder"]}
{"id": "C124", "title": "Residual blocks keep their input when the branch is silent", "statement": "A sequence of residual blocks with equal input and output channels whose branches end in a batch normalisation of scale and shift zero returns the positive part of its input, so exactly its input if that has no negative entry. The features returned by residual blocks, OctreeConvBnRelu and OctreeDeconvBnRelu are never negative.", "quantifier": "all numbers of blocks, both kinds of blocks, all bottlenecks, channels, weights, inputs, octrees and depths", "why_tests_cant": "It holds for every weight and input and any number of blocks.", "anchors": ["ocnn/modules/resblocks.py: OctreeResBlock, OctreeResBlock2, OctreeResBlocks", "ocnn/modules/modules.py: OctreeConvBnRelu, OctreeDeconvBnRelu"]}
{"id": "C125", "title": "Codes and decoded signals are bounded", "statement": "Every entry of the shape code of the AutoEncoder and of the signal that its decoder, Image2Shape and the decoder of OUNet predict lies in the range of tanh, so in [-1, 1]; when the octree is updated, exactly this signal is stored as the features of its last layer.", "quantifier": "all configurations, weights, octrees, codes, features", "why_tests_cant": "It holds for every weight and every input.", "anchors": ["ocnn/models/autoencoder.py: AutoEncoder.encoder, AutoEncoder.decoder", "ocnn/models/image2shape.py: Image2Shape", "ocnn/models/ounet.py: OUNet.decoder"]}
{"id": "C126", "title": "An octree in single precision is the exact octree of a nearby cloud", "statement": "Computed in single precision, build_octree gives the same layers (keys, children, counters) and the same map from points to nodes as exact arithmetic gives for a cloud whose coordinates are moved by at most 2^-24, and nearest-neighbour interpolation gives what exact arithmetic gives for query points moved in the same way; the displacement of a coordinate depends neither on the cloud nor on the depth. Hence every point of a cloud is found at every depth in the octree built from it, and at the last depth the search returns the map of build_octree. A cloud whose batch size differs from that of the octree is rejected.", "quantifier": "all clouds and queries of float32 points in [-1, 1] (found: below 1 - 2^-24), all batches, depths up to 16 for trees and 62 for queries, all octrees queried", "why_tests_cant": "Points near the faces of cells round to either side; a search that rounded in another way than the construction would lose a few points of some clouds only.", "anchors": ["ocnn/octree/octree.py: Octree.build_octree, search_xyzb", "ocnn/nn/octree_interp.py: OctreeInterp, octree_nearest_pts"]}
{"id": "C127", "title": "The last layer of a network moves and scales the logits, and nothing else does", "statement": "Take two checkpoints of a network that agree on all tensors before its last layer. If the last layer of the second has the weights of the first times c, and the bias of the first times c plus s, then each row of logits of the second is the row of the first times c plus s, and the interpolated points are the same; or both calls raise the same exception. So a change of the bias alone moves the logits by exactly that change, and the features below the classifier do not depend on it.", "quantifier": "all values of the parameters, all c and s, all configurations, octrees, depths, features and queries, the five networks UNet, SegNet (at least one stage), LeNet, ResNet and HRNet; dropout masks arbitrary but equal", "why_tests_cant": "A registered bias that is never read, or a header whose tensors are shared with the body, leaves every shape right and shows only in the values.", "anchors": ["ocnn/models/unet.py: UNet", "ocnn/models/segnet.py: SegNet", "ocnn/models/lenet.py: LeNet", "ocnn/models/resnet.py: ResNet", "ocnn/models/hrnet.py: HRNet", "ocnn/modules/modules.py: Conv1x1"]}
{"id": "C128", "title": "Linear interpolation in single precision uses the exact cells and nearly exact weights", "statement": "Computed in single precision, linear interpolation of query points in [-1, 1] combines exactly the cells, in the same order, that exact arithmetic combines for query points moved by at most 2^-24 per coordinate, and each weight differs from the exact weight by at most two relative rounding errors of 2^-24; in particular a weight is zero only if the exact one is. Both fail on the same inputs with the same error. Weights as near as that change the interpolated values by at most M * 2^-21 when the data are bounded by M.", "quantifier": "all octrees, depths 1 to 23, queries of float32 points in [-1, 1], with and without nempty and bound_check", "why_tests_cant": "A rounding that pushed a point across the centre plane of a cell would change which eight cells are combined, for some queries near such planes only; a cancellation in the fractional part would lose all digits of a weight there.", "anchors": ["ocnn/nn/octree_interp.py: OctreeInterp, octree_linear_pts"]}
{"id": "C129", "title": "Upsampling in single precision is exact", "statement": "Computed in single precision, OctreeUpsample with method 'linear' from depth d to depth t combines exactly the cells that exact arithmetic combines, in the same order; the weights are exactly the same when t <= d + 7 and differ by at most two relative rounding errors of 2^-24 otherwise. Both fail on the same inputs with the same error. Nearest-neighbour upsampling over more than one depth gives exactly the result of exact arithmetic.", "quantifier": "all octrees (no condition on their keys), all depths d < t <= 16, with and without nempty", "why_tests_cant": "The positions, fractional parts and products are computed in floating point for every node of every octree; a rounding in any of them would show for large coordinates or large differences of depth only.", "anchors": ["ocnn/nn/octree_interp.py: OctreeUpsample, octree_linear_pts"]}
{"id": "C130", "title": "Interpolation at positions given in cells is reliable in single precision", "statement": "With rescale_pts=False, for every query whose positions are single-precision numbers of [0, 2^22], linear interpolation computed in single precision combines exactly the cells that exact arithmetic combines for the same positions, in the same order, with weights off by at most 2^-21; nearest-neighbour interpolation returns exactly the same output. Both fail on the same inputs with the same error.", "quantifier": "all octrees, all depths up to 62, all queries with positions in [0, 2^22] that need not lie on any grid, with and without nempty and bound_check", "why_tests_cant": "The position minus one half, its fractional part and the factors all round for positions near zero, and a wrong cell would appear only for positions within one rounding error of a cell boundary.", "anchors": ["ocnn/nn/octree_interp.py: OctreeInterp, octree_linear_pts, octree_nearest_pts"]}
{"id": "C131", "title": "A clipped cloud is safe to build in single precision", "statement": "Whatever single-precision values a cloud holds, NaN and infinities included, clip keeps exactly the points whose coordinates are numbers strictly between its two bounds, with their attributes. If the bounds are at least -1 and at most 1 - 2^-24 (as with the defaults), build_octree on the clipped cloud succeeds in single precision, and every point that was kept is found in the octree at every depth from full_depth on; at the last depth the search returns the map that build_octree returned.", "quantifier": "all clouds of float32 values with one row per point in each attribute, all finite bounds, all octrees up to depth 16 and 32768 samples, all depths of the search", "why_tests_cant": "2^32 values per coordinate including NaN and infinities; a value within one rounding error of the bound or of a face of the cube would be misplaced for a single input only.", "anchors": ["ocnn/octree/points.py: Points.clip, Points.inbox_mask, Points.__getitem__", "ocnn/octree/octree.py: Octree.build_octree, Octree.search_xyzb"]}
{"id": "C132", "title": "Normalisation in single precision", "statement": "In single precision, normalize(bbmin, bbmax, scale) with scale <= 1 maps every point of the box to coordinates of magnitude at most scale + 2^-10, and to within 2^-10 per coordinate of what exact arithmetic gives, provided the longest side of the box is at least 2^-10 times the largest magnitude of its coordinates rounded up to a power of two; with scale <= 0.998 the result is safe for build_octree. The box that bbox returns is tight and contains every point. Without the condition on the side this fails: the box [2^24, 2^24+2] is mapped beyond 1.9 at scale 1.", "quantifier": "all float32 boxes with coordinates of magnitude at most 2^60 whose longest side meets the condition, all points in the box, all scales in [0, 1]", "why_tests_cant": "Centre, side, reciprocal and product all round; the loss depends on the distance of the cloud from the origin relative to its size, over 2^32 values per coordinate.", "anchors": ["ocnn/octree/points.py: Points.normalize, Points.bbox"]}
{"id": "C133", "title": "Any well-scaled cloud ends up in the octree, in single precision", "statement": "Computed in single precision, bbox, normalize with scale <= 0.998 and build_octree succeed on every cloud of finite numbers of magnitude at most 2^k in which two points are at least 2^(k-10) apart along some axis; every point of the cloud is then found in the octree at every depth from full_depth on, and at the last depth the search returns the map of build_octree.", "quantifier": "all float32 clouds meeting the condition, k from -60 to 60, all octrees up to depth 16, all depths of the search", "why_tests_cant": "Rounding in five places, over 2^32 values per coordinate and all cloud sizes; one point beyond the cube would be lost silently.", "anchors": ["ocnn/octree/points.py: Points.bbox, Points.normalize", "ocnn/octree/octree.py: Octree.build_octree, Octree.search_xyzb"]}
{"id": "C134", "title": "Flip is exact in single precision", "statement": "For every cloud of single-precision values, including infinities, signed zeros and NaN, flip changes exactly the signs of the coordinates whose letter occurs an odd number of times, in points and normals, and changes nothing else; flipping again restores every value exactly. An unknown letter raises KeyError after the letters before it took effect.", "quantifier": "all axis strings, all clouds of float32 values", "why_tests_cant": "All strings and 2^32 values per coordinate; the multiplication by -1.0 would have to be exact for every one of them, subnormal numbers included.", "anchors": ["ocnn/octree/points.py: Points.flip"]}
{"id": "C135", "title": "Orienting normals is exact in single precision, and stable off the plane", "statement": "For every cloud of single-precision normals, including infinities, signed zeros and NaN, orient_normal along x, y or z keeps each normal whose component along that axis is positive, exactly reverses every other one, and changes nothing else; no component along the axis is negative afterwards. Calling it again changes nothing for a normal whose component was a number other than zero, and restores the original normal otherwise. 'xyz' takes absolute values, a cloud without normals is left alone, and any other name raises KeyError when there are normals.", "quantifier": "all axis names, all clouds of float32 values", "why_tests_cant": "2^96 normals per row; the product with the computed flag has to be exact for each of them.", "anchors": ["ocnn/octree/points.py: Points.orient_normal"]}
{"id": "C136", "title": "Translation in single precision", "statement": "In single precision, translate replaces every coordinate by a float32 number nearest to the exact sum, keeps the order of the points along every axis and changes nothing but the coordinates, for coordinates and displacements of magnitude up to 2^60. Translating by the opposite displacement afterwards need not restore the cloud.", "quantifier": "all clouds and displacements of float32 numbers of magnitude up to 2^60", "why_tests_cant": "Every pair of numbers rounds differently; the order must be kept for every pair of points.", "anchors": ["ocnn/octree/points.py: Points.translate"]}
