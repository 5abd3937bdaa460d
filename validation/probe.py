def hexs(f): return open('/repo/testdata/'+f,'rb').read().hex()
v='''From Verif Require Import Base Schema Structs Registry Unmarshal BoxInfo ReadTree Extract Text GoText Stringify Edit Tool Probe.
Local Open Scope string_scope. Local Open Scope list_scope. Local Open Scope N_scope.
'''
for n,f in [('sample','sample.mp4'),('encv','sample_init.encv.mp4'),('enca','sample_init.enca.mp4'),('frag','sample_fragmented.mp4')]:
    v+='Definition %s := hex "%s".\n'%(n,hexs(f))
v+='''
Eval vm_compute in (let (r,p) := probe std_registry sample 0 in match r with Ok i => Some (map Ascii.N_of_ascii (p_major i), p_minor i, p_fast i, p_timescale i, p_duration i, map (fun t => (t_id t, t_timescale t, t_duration t, t_codec t, t_encrypted t, t_edits t, t_avc t, t_mp4a t, samples_bitrate (t_samples t) (t_timescale t), samples_max_bitrate (t_samples t) (t_timescale t) (t_timescale t), t_chunks t, lenN (t_samples t), takeN 2 (t_samples t), skipN 9 (takeN 10 (t_samples t)), fst (find_idr_frames sample t 0))) (p_tracks i), p_segments i) | _ => None end).
Eval vm_compute in (let (r,p) := probe std_registry encv 0 in match r with Ok i => Some (map (fun t => (t_id t, t_codec t, t_encrypted t)) (p_tracks i)) | _ => None end).
Eval vm_compute in (let (r,p) := probe std_registry enca 0 in match r with Ok i => Some (map (fun t => (t_id t, t_codec t, t_encrypted t)) (p_tracks i)) | _ => None end).
Eval vm_compute in (let (r,p) := probe std_registry frag 0 in match r with Ok i => Some (map (fun t => (t_id t, t_timescale t)) (p_tracks i), p_segments i) | _ => None end).
Eval vm_compute in (let x := extract_tool sample (bt "ftyp") in (fst x, lenN (snd x))).
Eval vm_compute in (let x := extract_tool sample (bt "mdhd") in (fst x, lenN (snd x))).
Eval vm_compute in (let x := extract_tool frag (bt "trun") in (fst x, lenN (snd x))).
'''
open('val2.v','w').write(v)
