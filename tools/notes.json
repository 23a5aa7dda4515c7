{
 "C01": {
  "note": "Also shows by example that the 16-bit batch range is sharp."
 },
 "C03": {
  "note": "Includes modular aliasing of out-of-range coordinates and the rejection of a plain int batch argument."
 },
 "C08": {
  "status": "partial",
  "note": "Proved for coordinates in [0,2^depth). For any other coordinates the search answers for the wrapped-around cell (proved), so the unrestricted claim is refuted with a witness."
 },
 "C17": {
  "status": "partial",
  "note": "Proved for [-1,1). The documented closed range is refuted: a coordinate equal to +1 is stored in the cell at the opposite face."
 },
 "C27": {
  "note": "Same theorem as C26 for the accepted strings, plus rejection of every other string."
 },
 "C72": {
  "status": "partial",
  "note": "The claim for every octree is refuted: full_depth = 0 without a root table always raises TypeError. Proved whenever full_depth >= 1 (C23) or the root table is present."
 },
 "C18": {
  "note": "All layers agree except the per-batch counters batch_nnum / batch_nnum_nempty, which only merge_octrees fills; the point-to-node maps are related too."
 },
 "C29": {
  "note": "Stated for members with batch_size 1, as documented."
 },
 "C30": {
  "status": "partial",
  "note": "Refuted for every list with a batched member: the result has duplicate keys and is not well formed. The guarded claim (single-sample members) is C29."
 },
 "C44": {
  "status": "partial",
  "note": "Finite iff every non-empty parent has a non-empty child (proved). Proved for built and merged octrees away from layer full_depth; refuted with witnesses at layer full_depth of a built octree and for a split/grow history."
 },
 "C46": {
  "status": "partial",
  "note": "Refuted: the result has one row per non-empty coarse node. Proved that the claim holds exactly if no coarse node is empty."
 },
 "C48": {
  "note": "Exact real arithmetic (uses the axioms of Coq's Reals). eps = 1e-5 is part of the statement; the bounds are exact, not approximate."
 },
 "C55": {
  "status": "partial",
  "note": "False of the code: near the border of the volume the default bound_check=False mixes in cells of the opposite border (refuted with a witness). Proved for points at least half a cell away from the border. OctreeUpsample in linear mode: same guarded theorem and refutation (C55_upsample_*)."
 },
 "C56": {
  "status": "partial",
  "note": "False of the code for the default rescale_pts=True (refuted with a witness; every call on points in [-1,1] changes the caller's tensor). Proved for rescale_pts=False and call sequences of any length."
 },
 "C57": {
  "status": "partial",
  "note": "Proved for every non-empty source layer. A source layer without nodes raises IndexError instead of returning zeros, for every such octree."
 },
 "C62": {
  "note": "Unit length is stated for normals whose transformed length reaches the 1e-12 clamp of the code; exact reals."
 },
 "C65": {
  "status": "partial",
  "note": "to() resets batch_size to 1 on another device and slicing drops batch_npt (refuted with witnesses); everything else is kept (proved)."
 },
 "C66": {
  "status": "partial",
  "note": "Refuted for every cloud and octree: a 1-D batch_id is never accepted and to_points never returns. The same ids as an (N,1) column are accepted (proved)."
 },
 "C70": {
  "status": "partial",
  "note": "Proved for keys that contain at most one of 'octree' and 'points' and where a key containing 'label' is 'label'. Without that the claim is refuted: values under e.g. 'label_index' replace the labels."
 },
 "C76": {
  "note": "The number of points is checked by the code to be between 1 and 3."
 },
 "C77": {
  "note": "The rotation matrix is an arbitrary matrix (cos and sin are not modelled here; C60 covers them). The theorem covers every draw the code accepts."
 },
 "C15": {
  "note": "Averaged points stay in their cells, local coordinates in [-1/2,1/2), global ones in [-1,1)."
 },
 "C67": {
  "note": "Shapes of every intermediate tensor and of the result for UNet (any configuration), LeNet (depth - stages = 2, which its flattened head needs), ResNet and HRNet, for all weights; batch normalisation is an arbitrary shape-preserving function (of at least lo rows)."
 },
 "C68": {
  "status": "partial",
  "note": "Refuted: with nempty=True the bottleneck convolution raises AssertionError whenever the bottleneck layer has an empty node (proved for all such octrees, with a built witness). Proved to work otherwise."
 },
 "C73": {
  "note": "Every weight assignment: the predicted logits decide exactly which nodes are non-empty; both modes of forward are covered."
 },
 "C75": {
  "status": "proved",
  "note": "IEEE binary32 with rounding to nearest even (Flocq). The statement includes the exact frontier 1-2^-24 from which coordinates wrap to the opposite face."
 },
 "C79": {
  "note": "Covers input features, UNet, SegNet, LeNet, ResNet, HRNet and AutoEncoder on given octrees. SegNet with nempty needs the bottleneck layer to have no empty node (otherwise the program itself fails, see C68); networks that max-pool without padding need octrees whose non-empty nodes have a non-empty child (poolable), as every built octree has."
 },
 "C80": {
  "status": "partial",
  "note": "The full claim is refuted with a witness (C80_decode_refuted): octree_split forces the first node to split when no node of the whole batch splits, so a sample that splits nothing gets a child alone but none in a batch. C80_decode_partial proves the claim when every sample asks for a split at every depth; missing is only the case that is false."
 },
 "C84": {
  "status": "partial",
  "note": "Proved for any history of batches without masked labels; with a masked label evaluation always raises RuntimeError (refuted). Softmax is an arbitrary function of a row; saving to disk is not modelled."
 },
 "C86": {
  "status": "partial",
  "note": "Proved for chunk numbers 0-9 and whole scenes in any order; every chunk number from 10 to 99 is credited to a different scene name (refuted). Files are given as functions from names to contents."
 },
 "C87": {
  "status": "partial",
  "note": "Soundness of the saved masks for all clouds; coverage for clouds without negative coordinates; refuted with the crop size, stride and minimum of the code for a cloud with a negative minimum corner."
 },
 "C83": {
  "note": "Sums of counts are exact; the tracker of the solver is modelled as the mean over the batches."
 },
 "C85": {
  "note": "F.normalize is an arbitrary function of a row."
 },
 "C88": {
  "note": "Buses, rail vehicles and lane markings are not among the kept names and map to 0. The class lists are compared with an independent list of the benchmark's classes."
 },
 "C89": {
  "note": "The generators are arbitrary functions into their ranges; pi is the constant 3.14159265 of the code."
 },
 "C90": {
  "note": "The image encoder is an arbitrary function; normalisation layers as in C73."
 },
 "C91": {
  "note": "The cross entropy of one row is an arbitrary function of row and label; means are exact."
 },
 "C92": {
  "note": "Proved for clouds that share no tensor (C92_values_partial); for shared tensors it is false of flip and orient_normal('xyz'), which write in place (C92_shared_refuted), and of nothing else (C92_frame)."
 },
 "C93": {
  "note": "A scale of zero of the auto-encoder is not followed; features of ScanNet that are not numbers are followed only to the point where they arise (C93_scannet_distort)."
 },
 "C94": {
  "note": "That colours stay numbers is false when a channel has one value only (C94_numbers_refuted); the rest is proved."
 },
 "C95": {
  "note": "The noise is an arbitrary field; scipy's interpolation is modelled on the regular grid, exact arithmetic."
 },
 "C96": {
  "note": "The construction always raises a TypeError (C96_construct_refuted, C96_completion_refuted; C96_call specifies calls by position and keyword), and the encoder calls a method no class defines (C96_encoder_refuted). The decoder is proved for arbitrary features of the encoder on a given output octree (C96_decoder_partial), its result depends only on the features of cells both octrees have (C96_shared_partial), and with such a method the network that grows its octree is proved, with replay on the grown octree (C96_grow_partial)."
 },
 "C98": {
  "note": "The claim is false if a run is interrupted while it writes an output: the file exists from then on and is skipped by every later run (C98_resume_refuted, for every scene). Proved for all other points of interruption (C98_resume_partial), and for uninterrupted runs (C98_complete)."
 },
 "C99": {
  "note": "The extraction is proved for all points of interruption (C99_unzip). Cleaning rewrites mesh files in place, so a run killed during that write loses the mesh for good (C99_clean_refuted); proved for all other points of interruption (C99_clean_partial)."
 },
 "C103": {
  "note": "process_batch and model_forward are modelled with the collated dictionary, including the exceptions for missing or wrongly typed entries. The merged clouds agree in every field but batch_size: Points.cuda() forgets it (see C66)."
 },
 "C104": {
  "note": "Evaluation mode (batch normalisation row by row, no dropout), exact arithmetic. SegNet with nempty=False only: with nempty=True it raises (C68)."
 },
 "C105": {
  "note": "The per-row loss of CrossEntropyLoss is an arbitrary function of row and label. The full layers must not be finer than the coarsest pooled layer."
 },
 "C106": {
  "note": "Files are modelled by the numbers in them. Colors are never found in an archive written by Points.save, because features are saved as 'features'."
 },
 "C107": {
  "note": "The rounding to 32 bits is any idempotent function that is exact on the integers from 0 to 255. A file name without a folder raises FileNotFoundError (C107_bare_refuted) and a text file of one point IndexError (C107_single_refuted)."
 },
 "C108": {
  "note": "Rounding of products is any monotone function exact on small integers (for 0.8 on multiples of 1/8 up to 2^50). Folders are listings without repeated names."
 },
 "C109": {
  "note": "Without the proviso the statement is false of the code: 'c in line' also matches inside the name, and the shape is listed a second time with the wrong number (C109_refuted)."
 },
 "C110": {
  "note": "Motions, convolution, pooling, ResNet for any motion; end to end for translations of clouds. Mirror images are proved for octrees, not for clouds: a point on the face of a cell belongs to the other cell after mirroring."
 },
 "C111": {
  "note": "Averaged signals (normals, features) do depend on the points; only the nodes, children, counts and neighbour tables are claimed equal."
 },
 "C112": {
  "note": "Translations by whole cells for the network; single layers also for exchanged axes with turned weights. A mirrored shape is not covered for stride 2: the kernel of a stride-2 layer starts at the first child, and a mirror image changes which child is first (C112_mirror_case)."
 },
 "C113": {
  "note": "Whether new names coincide depends on the checkpoint: C113_lost_case shows two names that become one, C113_bias_case a weight and a bias that are torn apart, C113_twice_case that the tool is not idempotent."
 },
 "C115": {
  "note": "SegNet is stated for nempty=False: with nempty=True its code raises (C68). HRNet needs moves by cells of layer 2 or coarser since its coarsest branch lives there."
 },
 "C116": {
  "note": "Sums are exact (real arithmetic); in floating point the order of summation can change the last bits. The update of the running statistics is not modelled; 1/sqrt(v+eps) is an arbitrary function."
 },
 "C117": {
  "note": "Exact arithmetic; normalisation is any function of the rows that does not depend on their order (C116 shows that batch normalisation in training mode is one). Query points may lie anywhere in the box, for linear interpolation at least half a cell from its border."
 },
 "C118": {
  "note": "Exact arithmetic. The buffer holds the taps of at least one node, as in C33 and C37 (with a smaller buffer the code raises)."
 },
 "C119": {
  "note": "Exact arithmetic. For stride 2 the motion keeps first children first, as in C112. The motion moves cells of the layers from e on; with features of all nodes from layer e+1 on."
 },
 "C120": {
  "note": "Missing from the proved part: ratios that are printed alike with two digits share their log folders, and a row then shows the results of the last of them (C120_printed, C120_results_refuted); an alias that is empty or starts with '/' puts the logs where the summary does not look for them (C120_alias_refuted). What a command does to files is a parameter: its log ends with its own line and no other log changes. Means in exact arithmetic; the text of summaries.csv is not modelled."
 },
 "C121": {
  "note": "The reach is an upper bound of the distance; that it is attained is not claimed. Normalisation in evaluation mode (in training mode the statistics of batch norm depend on all nodes)."
 },
 "C122": {
  "note": "Without the limit on the number of points the stored point can leave the cell (C122_crowded_refuted). scatter_add_ is modelled as adding rows one after the other; every order is covered because the theorem holds for every order of the cloud. Normals and features are not covered.",
  "status": "proved"
 },
 "C123": {
  "note": "The list of tensors (SpecState) is written from the constructors; a batch normalisation is one entry (its four tensors and its mode). Dropout masks and tanh are taken to be the same. That the weights and the bias of the last layer matter is C127."
 },
 "C124": {
  "note": "Stated for calls that return; that the blocks return on well-formed octrees is part of C67."
 },
 "C125": {
  "note": "tanh is an arbitrary function whose values satisfy the bound."
 },
 "C126": {
  "note": "The averages stored in the last layer are in C122; the weights of linear interpolation are in C128."
 },
 "C127": {
  "note": "Exact arithmetic. The auto-encoder applies tanh or further layers after its headers and is not covered."
 },
 "C128": {
  "note": "Covers the sparse matrix; the order in which torch.sparse.mm adds the products is the library's. Depth 0 is excluded: there the fractional part needs 25 bits."
 },
 "C129": {
  "note": "Covers the sparse matrix; its product with the data is covered by C128_output."
 },
 "C130": {
  "note": "Covers the sparse matrix of linear interpolation and the output of nearest-neighbour interpolation. Negative positions are not covered: there the subtraction of one half can round to the next cell boundary."
 },
 "C131": {
  "note": "With esp=0 the bound is 1 and the theorem does not apply: example C131_no_margin keeps the largest number below 1, which C75 shows to wrap."
 },
 "C132": {
  "note": "The condition on the longest side is necessary in some form: C132_far_refuted. The reciprocal-and-multiply order of a Python number divided by a tensor is modelled."
 },
 "C133": {
  "note": "One sample; for batches see C131. The condition on the extent cannot be dropped altogether: C132_far_refuted."
 },
 "C134": {
  "note": "Payloads and signs of NaN are not distinguished in the model."
 },
 "C135": {
  "note": "Payloads and signs of NaN are not distinguished in the model."
 },
 "C136": {
  "note": "C136_back_refuted: exact translation is undone by the opposite displacement, single-precision translation need not be."
 }
}