P256_SHA256_OPRF_1 all true
P256_SHA256_OPRF_2 all true
P256_SHA256_VOPRF_1 = [true; true; true; true; true; true] : list bool Finished transaction in 1113.8 secs (1113.609u,0.023s) (successful)
P256_SHA256_VOPRF_2 = [true; true; true; true; true; true] : list bool Finished transaction in 1077.613 secs (1048.792u,0.079s) (successful)
P256_SHA256_VOPRF_3 = [true; true; true; true; true; true; true] : list bool Finished transaction in 1518.652 secs (1503.73u,0.076s) (successful)
P256_SHA256_POPRF_1 = [true; true; true; true; true; true] : list bool Finished transaction in 1181.917 secs (1162.17u,0.039s) (successful)
P256_SHA256_POPRF_2 = [true; true; true; true; true; true] : list bool Finished transaction in 1543.759 secs (1218.067u,0.127s) (successful)
P256_SHA256_POPRF_3 = [true; true; true; true; true; true; true] : list bool Finished transaction in 1854.228 secs (1831.436u,0.143s) (successful)
