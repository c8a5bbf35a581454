#!/usr/bin/env python3
"""Turns the tables of the unit tests of /repo into Coq examples about the model (theories/Vec*.v).

The code cannot be run here, so the expected results written in its own tests are what the hand transcription is compared with."""
import os
import re
import sys

sys.path.insert(0, os.path.dirname(os.path.abspath(__file__)))
import golit
from golit import Lit, bytes_of

C = '/repo/pkg/codecs/'
OUT = os.path.join(os.path.dirname(os.path.dirname(os.path.abspath(__file__))), 'rocq', 'theories')


def z(v):
    v = 0 if v is None else v
    if isinstance(v, bool) or not isinstance(v, int):
        raise ValueError('not a number: %r' % (v,))
    return '(%d)' % v if v < 0 else '%d' % v


def b(v):
    if v not in (None, True, False):
        raise ValueError('not a flag: %r' % (v,))
    return 'true' if v else 'false'


def lst(xs):
    return '[' + '; '.join(xs) + ']'


def byts(v):
    return lst([z(x) for x in bytes_of(v)])


def bytss(v):
    return lst([byts(x) for x in (v.vals() if v else [])])


def pairs(*ls):
    return list(zip(*ls))


def opt(f):
    return lambda v: 'None' if v is None else '(Some %s)' % f(v)


def rec(lit, fields):
    """fields: (coq field, emitter, go field...). Fails when the literal has a Go field that is not listed."""
    used, out = set(), []
    for f, e, *gs in fields:
        used |= set(gs)
        v = e(*[lit.get(g) for g in gs])
        if v.startswith('(') is False and ' ' in v and not v.startswith('[') and not v.startswith('{'):
            v = '(%s)' % v
        out.append('%s := %s' % (f, v))
    extra = [k for k, _ in lit.els if k not in used]
    if extra:
        raise ValueError('fields without a counterpart: %s' % extra)
    return '{| ' + '; '.join(out) + ' |}'


class File:
    def __init__(self, name, imports):
        self.name = name
        self.out = ['(** Generated by tools/vectors.py: the tables of the unit tests of the repository, as checks of the transcription. *)',
                    'From Coq Require Import String ZArith List Bool.',
                    'From Verif Require Import %s.' % ' '.join(imports),
                    'Import ListNotations.', 'Open Scope string_scope.', 'Open Scope list_scope.', 'Open Scope Z_scope.', '',
                    'Definition is_err {A} (r : res A) : bool := match r with Err _ => true | _ => false end.', '']
        self.n = {}
        self.count = 0

    def section(self, path):
        self.out.append('(** %s *)' % path.replace('/repo/', ''))

    def defn(self, name, term):
        self.out.append('Definition %s := %s.' % (name, term))

    def ex(self, base, stmt, note='', tac='vm_compute. repeat split; reflexivity.'):
        k = self.n.get(base, 0)
        self.n[base] = k + 1
        self.count += 1
        if note:
            self.out.append('(* %s *)' % re.sub(r'\(\*|\*\)|"', "'", note))
        self.out.append('Example vec_%s_%d : %s.\nProof. %s Qed.' % (base, k, stmt, tac))

    def write(self):
        p = os.path.join(OUT, self.name + '.v')
        s = '\n'.join(self.out) + '\n'
        if not os.path.exists(p) or open(p).read() != s:
            open(p, 'w').write(s)
        print(self.name, self.count)


# ---------------------------------------------------------------- bits, NALUs
def bits_nalus():
    f = File('VecNalu', ['Base', 'BitsModel', 'NaluModel', 'VideoModel'])
    f.section('/repo/pkg/bits/read_test.go')
    src = open('/repo/pkg/bits/read_test.go').read()
    # TestReadBits: successive reads of a buffer
    buf = byts(golit.P_prefix(re.search(r'func TestReadBits\(.*?buf := (.*?)\n', src, re.S).group(1)))
    m = re.search(r'func TestReadBits\(.*?\n}\n', src, re.S).group(0)
    ns = [int(x) for x in re.findall(r'ReadBits\(buf, &pos, (\d+)\)', m)]
    vs = [int(x, 16) for x in re.findall(r'uint64\((0x[0-9a-f]+)\)', m)]
    pos = 0
    for n, v in zip(ns, vs):
        f.ex('read_bits', 'read_bits %s %d %d = Ok (%d, %d)' % (buf, pos, n, v, pos + n))
        pos += n
    f.ex('read_bits', 'read_bits [0xA8] 6 6 = Err "not enough bits"')
    f.ex('golomb_u', 'exists p, read_golomb_unsigned [0x38] 0 = Ok (6, p)')
    f.out[-1] = f.out[-1].replace('vm_compute. repeat split; reflexivity.', 'eexists. vm_compute. reflexivity.')
    for t, e in [('[0]', 'not enough bits'), ('[0; 1]', 'not enough bits'), ('[0; 0; 0; 0; 1]', 'invalid value')]:
        f.ex('golomb_u', 'read_golomb_unsigned %s 0 = Err "%s"' % (t, e))
    for t, v in [('[0x38]', -3), ('[36]', 2)]:
        f.ex('golomb_s', 'exists p, read_golomb_signed %s 0 = Ok (%s, p)' % (t, z(v)))
        f.out[-1] = f.out[-1].replace('vm_compute. repeat split; reflexivity.', 'eexists. vm_compute. reflexivity.')
    f.ex('golomb_s', 'read_golomb_signed [0] 0 = Err "not enough bits"')
    f.ex('flag', 'read_flag [255] 0 = Ok (true, 1) /\\ read_flag [] 0 = Err "not enough bits"')
    f.section('/repo/pkg/bits/write_test.go')
    f.ex('write', "('(b, p) <- write_bits (repeat 0 6) 0 0x2a 6 ;; '(b, p) <- write_bits b p 0x0c 6 ;; '(b, p) <- write_bits b p 0x1f 6 ;;\n"
         "  '(b, p) <- write_bits b p 0x5a 8 ;; write_bits b p 0xaaec4 20) = Ok ([0xA8; 0xC7; 0xD6; 0xAA; 0xBB; 0x10], 46)")
    f.ex('write', "('(b, p) <- write_flag [0] 0 true ;; write_flag b p false) = Ok ([0x80], 2)")
    p = C + 'h264/annexb_test.go'
    f.section(p)
    for c in golit.var(p, 'casesAnnexB').vals():
        f.ex('annexb', 'annexb_unmarshal %s = Ok %s /\\ annexb_marshal %s = Ok %s'
             % (byts(c.get('encin')), bytss(c.get('dec')), bytss(c.get('dec')), byts(c.get('encout'))), c.get('name'))
    f.ex('annexb', 'annexb_unmarshal [0; 0; 0; 1; 0; 0; 0; 1; 1] = Ok [[1]]')
    f.ex('annexb', 'is_err (annexb_unmarshal [0; 0; 0; 1; 0; 0; 0; 1]) = true')
    f.ex('annexb', 'annexb_unmarshal (List.concat (repeat [0; 0; 0; 1; 0xAA] 51)) = Err "NALU count exceeds maximum allowed"')
    p = C + 'h264/avcc_test.go'
    f.section(p)
    for c in golit.var(p, 'casesAVCC').vals():
        f.ex('avcc', 'avcc_unmarshal %s = Ok %s /\\ avcc_marshal %s = Ok %s'
             % (byts(c.get('enc')), bytss(c.get('dec')), bytss(c.get('dec')), byts(c.get('enc'))), c.get('name'))
    f.ex('avcc', 'is_err (avcc_unmarshal [0; 0; 0; 0]) = true')
    f.ex('avcc', 'avcc_unmarshal [0; 0; 0; 0; 0; 0; 0; 3; 1; 2; 3] = Ok [[1; 2; 3]]')
    f.ex('avcc', 'avcc_unmarshal (List.concat (repeat [0; 0; 0; 1; 0xAA] 51)) = Err "NALU count exceeds maximum allowed"')
    p = C + 'h264/emulation_prevention_test.go'
    f.section(p)
    for c in golit.var(p, 'casesEmulationPreventionRemove').vals():
        f.ex('epr', 'epr %s = Ok %s' % (byts(c.get('proc')), byts(c.get('unproc'))), c.get('name'))
    f.section(C + '{h264,h265,av1,vp8,vp9}/is_random_access_test.go')
    f.ex('random', 'h264_random_access [[5]; [7]] = Ok true /\\ h264_random_access [[1]] = Ok false')
    f.ex('random', 'h265_random_access [[19 * 2]] = Ok true /\\ h265_random_access [[0]] = Ok false')
    a = golit.P_prefix(re.search(r'IsRandomAccess2\((.*?)\)\n', open(C + 'av1/is_random_access_test.go').read(), re.S).group(1))
    f.ex('random', 'av1_random_access2 %s = Ok true /\\ av1_random_access2 [] = Ok false /\\ av1_random_access2 [[]] = Ok false' % bytss(a))
    f.ex('random', 'vp8_random_access [0; 1; 2] = Ok true /\\ vp8_random_access [1; 0; 0] = Ok false /\\ vp8_random_access [] = Ok false')
    a = golit.P_prefix(re.search(r'true, IsRandomAccess\((.*?)\)\)\n', open(C + 'vp9/is_random_access_test.go').read(), re.S).group(1))
    f.ex('random', 'vp9_random_access %s = Ok true /\\ vp9_random_access [0x86] = Ok false /\\ vp9_random_access [] = Ok false' % byts(a))
    p = C + 'mpeg4video/is_valid_config_test.go'
    f.section(p)
    for c in golit.var(p, 'casesIsValidConfig').vals():
        f.ex('mpeg4video', 'is_valid_config %s = Ok tt' % byts(c.get('byts')), c.get('name'))
    f.write()


# ---------------------------------------------------------------- H.264, H.265
CROP = [('c_left', z, 'LeftOffset'), ('c_right', z, 'RightOffset'), ('c_top', z, 'TopOffset'), ('c_bottom', z, 'BottomOffset')]


def crop(l):
    return rec(l, CROP)


def hrd(l):
    def cpb(a, c, d):
        return lst(['(%s, %s, %s)' % (z(x), z(y), b(w)) for x, y, w in pairs(a.vals(), c.vals(), d.vals())])
    return rec(l, [('h_cnt', z, 'CpbCntMinus1'), ('h_rate_scale', z, 'BitRateScale'), ('h_size_scale', z, 'CpbSizeScale'),
                   ('h_cpb', cpb, 'BitRateValueMinus1', 'CpbSizeValueMinus1', 'CbrFlag'),
                   ('h_initial', z, 'InitialCpbRemovalDelayLengthMinus1'), ('h_removal', z, 'CpbRemovalDelayLengthMinus1'),
                   ('h_output', z, 'DpbOutputDelayLengthMinus1'), ('h_offset', z, 'TimeOffsetLength')])


def vui_common(p):
    return [(p + 'ar_present', b, 'AspectRatioInfoPresentFlag'), (p + 'ar_idc', z, 'AspectRatioIdc'), (p + 'sar_w', z, 'SarWidth'),
            (p + 'sar_h', z, 'SarHeight'), (p + 'os_present', b, 'OverscanInfoPresentFlag'), (p + 'os_appropriate', b, 'OverscanAppropriateFlag'),
            (p + 'vst_present', b, 'VideoSignalTypePresentFlag'), (p + 'format', z, 'VideoFormat'), (p + 'full', b, 'VideoFullRangeFlag'),
            (p + 'col_present', b, 'ColourDescriptionPresentFlag'), (p + 'prim', z, 'ColourPrimaries'), (p + 'trans', z, 'TransferCharacteristics'),
            (p + 'matrix', z, 'MatrixCoefficients'), (p + 'cl_present', b, 'ChromaLocInfoPresentFlag'),
            (p + 'cl_top', z, 'ChromaSampleLocTypeTopField'), (p + 'cl_bottom', z, 'ChromaSampleLocTypeBottomField')]


def vui(l):
    def timing(t):
        return rec(t, [('t_units', z, 'NumUnitsInTick'), ('t_scale', z, 'TimeScale'), ('t_fixed', b, 'FixedFrameRateFlag')])

    def restr(t):
        return rec(t, [('br_mv', b, 'MotionVectorsOverPicBoundariesFlag'), ('br_bytes', z, 'MaxBytesPerPicDenom'), ('br_bits', z, 'MaxBitsPerMbDenom'),
                       ('br_h', z, 'Log2MaxMvLengthHorizontal'), ('br_v', z, 'Log2MaxMvLengthVertical'),
                       ('br_reorder', z, 'MaxNumReorderFrames'), ('br_buffering', z, 'MaxDecFrameBuffering')])
    return rec(l, vui_common('v_') + [
        ('v_timing', opt(timing), 'TimingInfo'), ('v_nal', opt(hrd), 'NalHRD'), ('v_vcl', opt(hrd), 'VclHRD'),
        ('v_low_delay', b, 'LowDelayHrdFlag'), ('v_pic_struct', b, 'PicStructPresentFlag'), ('v_restriction', opt(restr), 'BitstreamRestriction')])


def sps(l):
    def lists(a, c):
        return lst(['(%s, %s)' % (lst([z(v) for v in x.vals()]), b(y)) for x, y in pairs(a.vals() if a else [], c.vals() if c else [])])
    return rec(l, [
        ('s_profile', z, 'ProfileIdc'), ('s_cs', lambda *x: lst([b(v) for v in x])) + tuple('ConstraintSet%dFlag' % i for i in range(6)),
        ('s_level', z, 'LevelIdc'), ('s_id', z, 'ID'), ('s_chroma', z, 'ChromaFormatIdc'), ('s_separate', b, 'SeparateColourPlaneFlag'),
        ('s_luma', z, 'BitDepthLumaMinus8'), ('s_chroma_depth', z, 'BitDepthChromaMinus8'), ('s_bypass', b, 'QpprimeYZeroTransformBypassFlag'),
        ('s_l4', lists, 'ScalingList4x4', 'UseDefaultScalingMatrix4x4Flag'), ('s_l8', lists, 'ScalingList8x8', 'UseDefaultScalingMatrix8x8Flag'),
        ('s_frame_num', z, 'Log2MaxFrameNumMinus4'), ('s_poc_type', z, 'PicOrderCntType'), ('s_poc_lsb', z, 'Log2MaxPicOrderCntLsbMinus4'),
        ('s_always_zero', b, 'DeltaPicOrderAlwaysZeroFlag'), ('s_non_ref', z, 'OffsetForNonRefPic'), ('s_top_bottom', z, 'OffsetForTopToBottomField'),
        ('s_ref_frames', byts, 'OffsetForRefFrames'), ('s_max_ref', z, 'MaxNumRefFrames'), ('s_gaps', b, 'GapsInFrameNumValueAllowedFlag'),
        ('s_width', z, 'PicWidthInMbsMinus1'), ('s_height', z, 'PicHeightInMapUnitsMinus1'), ('s_mbs_only', b, 'FrameMbsOnlyFlag'),
        ('s_adaptive', b, 'MbAdaptiveFrameFieldFlag'), ('s_direct', b, 'Direct8x8InferenceFlag'),
        ('s_crop', opt(crop), 'FrameCropping'), ('s_vui', opt(vui), 'VUI')])


def sps5(l):
    def timing(t):
        return rec(t, [('t5_units', z, 'NumUnitsInTick'), ('t5_scale', z, 'TimeScale'), ('t5_prop', b, 'POCProportionalToTimingFlag'),
                       ('t5_ticks', z, 'NumTicksPOCDiffOneMinus1')])

    def vui5(t):
        return rec(t, vui_common('u_') + [
            ('u_neutral', b, 'NeutralChromaIndicationFlag'), ('u_field_seq', b, 'FieldSeqFlag'), ('u_frame_field', b, 'FrameFieldInfoPresentFlag'),
            ('u_window', opt(crop), 'DefaultDisplayWindow'), ('u_timing', opt(timing), 'TimingInfo')])

    def ptl(t):
        flags = ['ProgressiveSourceFlag', 'InterlacedSourceFlag', 'NonPackedConstraintFlag', 'FrameOnlyConstraintFlag', 'Max12bitConstraintFlag',
                 'Max10bitConstraintFlag', 'Max8bitConstraintFlag', 'Max422ChromeConstraintFlag', 'Max420ChromaConstraintFlag',
                 'MaxMonochromeConstraintFlag', 'IntraConstraintFlag', 'OnePictureOnlyConstraintFlag', 'LowerBitRateConstraintFlag']
        return rec(t, [
            ('p_space', z, 'GeneralProfileSpace'), ('p_tier', z, 'GeneralTierFlag'), ('p_idc', z, 'GeneralProfileIdc'),
            ('p_compat', lambda x: lst([b(v) for v in x.vals()]), 'GeneralProfileCompatibilityFlag'),
            ('p_flags', lambda *x: lst([b(v) for v in x])) + tuple('General' + i for i in flags),
            ('p_max14', b, 'GeneralMax14BitConstraintFlag'), ('p_level', z, 'GeneralLevelIdc'),
            ('p_sub', lambda x, y: lst(['(%s, %s)' % (b(i), b(j)) for i, j in pairs(x.vals() if x else [], y.vals() if y else [])]),
             'SubLayerProfilePresentFlag', 'SubLayerLevelPresentFlag')])

    def used(a, c):
        return lst(['(%s, %s)' % (z(x), b(y)) for x, y in pairs(a.vals() if a else [], c.vals() if c else [])])

    def rps(t):
        return rec(t, [('r_inter', b, 'InterRefPicSetPredictionFlag'), ('r_idx', z, 'DeltaIdxMinus1'), ('r_sign', b, 'DeltaRpsSign'),
                       ('r_abs', z, 'AbsDeltaRpsMinus1'), ('r_neg', z, 'NumNegativePics'), ('r_posi', z, 'NumPositivePics'),
                       ('r_s0', used, 'DeltaPocS0', 'UsedByCurrPicS0Flag'), ('r_s1', used, 'DeltaPocS1', 'UsedByCurrPicS1Flag')])

    def scaling(t):
        m = [t.get(k).vals() for k in ('ScalingListPredModeFlag', 'ScalingListPredmatrixIDDelta', 'ScalingListDcCoefMinus8')]
        at = lambda k, i, j: m[k][i].vals()[j]
        out = []
        for i in range(4):
            for j in range(0, 6, 3 if i == 3 else 1):
                out.append('{| e_size := %d; e_matrix := %d; e_pred := %s; e_delta := %s; e_dc := %s |}'
                           % (i, j, b(at(0, i, j)), z(at(1, i, j)), z(at(2, i - 2, j) if i >= 2 else 0)))
        return lst(out)

    def pcm(e, *x):
        return '(Some (%s, %s, %s, %s, %s))' % (z(x[0]), z(x[1]), z(x[2]), z(x[3]), b(x[4])) if e else 'None'
    return rec(l, [
        ('q_vps', z, 'VPSID'), ('q_maxsub', z, 'MaxSubLayersMinus1'), ('q_nesting', b, 'TemporalIDNestingFlag'), ('q_ptl', ptl, 'ProfileTierLevel'),
        ('q_id', z, 'ID'), ('q_chroma', z, 'ChromaFormatIdc'), ('q_separate', b, 'SeparateColourPlaneFlag'),
        ('q_width', z, 'PicWidthInLumaSamples'), ('q_height', z, 'PicHeightInLumaSamples'), ('q_window', opt(crop), 'ConformanceWindow'),
        ('q_luma', z, 'BitDepthLumaMinus8'), ('q_chroma_depth', z, 'BitDepthChromaMinus8'), ('q_poc_lsb', z, 'Log2MaxPicOrderCntLsbMinus4'),
        ('q_ordering', b, 'SubLayerOrderingInfoPresentFlag'),
        ('q_layers', lambda *x: lst(['(%s, %s, %s)' % tuple(map(z, t)) for t in pairs(*[i.vals() for i in x])]),
         'MaxDecPicBufferingMinus1', 'MaxNumReorderPics', 'MaxLatencyIncreasePlus1'),
        ('q_sizes', lambda *x: lst([z(v) for v in x]), 'Log2MinLumaCodingBlockSizeMinus3', 'Log2DiffMaxMinLumaCodingBlockSize',
         'Log2MinLumaTransformBlockSizeMinus2', 'Log2DiffMaxMinLumaTransformBlockSize', 'MaxTransformHierarchyDepthInter', 'MaxTransformHierarchyDepthIntra'),
        ('q_scaling', b, 'ScalingListEnabledFlag'), ('q_scaling_data', opt(scaling), 'ScalingListData'),
        ('q_amp', b, 'AmpEnabledFlag'), ('q_sao', b, 'SampleAdaptiveOffsetEnabledFlag'),
        ('q_pcm', pcm, 'PcmEnabledFlag', 'PcmSampleBitDepthLumaMinus1', 'PcmSampleBitDepthChromaMinus1', 'Log2MinPcmLumaCodingBlockSizeMinus3',
         'Log2DiffMaxMinPcmLumaCodingBlockSize', 'PcmLoopFilterDisabledFlag'),
        ('q_sets', lambda x: lst([rps(i) for i in (x.vals() if x else [])]), 'ShortTermRefPicSets'), ('q_long', b, 'LongTermRefPicsPresentFlag'),
        ('q_mvp', b, 'TemporalMvpEnabledFlag'), ('q_smoothing', b, 'StrongIntraSmoothingEnabledFlag'), ('q_vui', opt(vui5), 'VUI')])


def h26x():
    f = File('VecSps', ['Base', 'SpsModel', 'Sps5Model', 'DtsModel', 'Dts5Model'])
    p = C + 'h264/sps_test.go'
    f.section(p)

    def rate(fps, t, k):
        # the model has the two terms of the quotient, the test has the quotient as a float
        q = 'None' if not t else '(Some (%d, %d))' % (t.get('TimeScale', 0), k * t.get('NumUnitsInTick', 0))
        if t and float(t.get('TimeScale')) / (k * t.get('NumUnitsInTick')) != float(fps):
            raise ValueError('rate')
        return q
    for c in golit.var(p, 'casesSPS').vals():
        s = c.get('sps')
        t = s.get('VUI').get('TimingInfo') if s.get('VUI') else None
        f.ex('h264_sps', 'let s := %s in\n  sps_unmarshal %s = Ok s /\\ sps_width s = %d /\\ sps_height s = %d /\\ sps_fps s = %s'
             % (sps(s), byts(c.get('byts')), c.get('width'), c.get('height'), rate(c.get('fps'), t, 2)), c.get('name'))
    p = C + 'h265/sps_test.go'
    f.section(p)
    for c in golit.var(p, 'casesSPS').vals():
        s = c.get('sps')
        t = s.get('VUI').get('TimingInfo') if s.get('VUI') else None
        f.ex('h265_sps', 'let s := %s in\n  sps5_unmarshal %s = Ok s /\\ sps5_width s = Ok %d /\\ sps5_height s = Ok %d /\\ sps5_fps s = %s'
             % (sps5(s), byts(c.get('byts')), c.get('width'), c.get('height'), rate(c.get('fps'), t, 1)), c.get('name'))
    p = C + 'h265/pps_test.go'
    f.section(p)
    for c in golit.var(p, 'casesPPS').vals():
        f.ex('h265_pps', 'pps5_unmarshal %s = Ok %s' % (byts(c.get('byts')), rec(c.get('pps'), [
            ('pp_id', z, 'ID'), ('pp_sps', z, 'SPSID'), ('pp_dependent', b, 'DependentSliceSegmentsEnabledFlag'),
            ('pp_output', b, 'OutputFlagPresentFlag'), ('pp_extra', z, 'NumExtraSliceHeaderBits')])), c.get('name'))
    for d, fun, ini, ip, idt in (('h264', 'extract_all', 'dts_init', 2, 1), ('h265', 'extract_all5', 'dts5_init', 1, 2)):
        p = C + d + '/dts_extractor_test.go'
        f.section(p)
        for c in golit.var(p, 'casesDTSExtractor').vals():
            calls, res = [], []
            for s in c.get('sequence').vals():
                v = s.vals() if s.els[0][0] is None else [s.get('au'), None, None]
                if s.els[0][0] is None:
                    pts, dts = v[ip], v[idt]
                else:
                    pts, dts = s.get('pts', 0), s.get('dts', 0)
                calls.append('(%s, %s)' % (bytss(v[0]), z(pts)))
                res.append('Ok %s' % z(dts))
            f.ex(d + '_dts', '%s %s [%s] =\n  [%s]' % (fun, ini, ';\n    '.join(calls), '; '.join(res)), c.get('name'))
    f.write()


# ---------------------------------------------------------------- AV1, VP9
def av1_vp9():
    f = File('VecAv1', ['Base', 'Av1Model', 'VideoModel'])
    p = C + 'av1/bitstream_test.go'
    f.section(p)
    for c in golit.var(p, 'casesBitstream').vals():
        f.ex('av1_bitstream', 'bitstream_unmarshal [] %s = Ok %s /\\ bitstream_marshal %s = Ok %s'
             % (byts(c.get('enc')), bytss(c.get('dec')), bytss(c.get('dec')), byts(c.get('enc'))), c.get('name'))
    src = open(p).read()
    m = re.search(r'Bitstream\((\[\]\[\]byte.*?)\)\.Marshal', src, re.S).group(1)
    m2 = re.search(r'OBUsWithSize.*?require.Equal\(t, (.*?), enc\)', src, re.S).group(1)
    f.ex('av1_bitstream', 'bitstream_marshal %s = Ok %s' % (bytss(golit.P_prefix(m)), byts(golit.P_prefix(m2))), 'OBUs with size')
    p = C + 'av1/leb128_test.go'
    f.section(p)
    for c in golit.var(p, 'casesLEB128').vals():
        e = bytes_of(c.get('enc'))
        f.ex('leb128', 'leb_unmarshal %s = Ok (%s, %d) /\\ leb_size %s = Ok %d /\\ leb_marshal_to %s (repeat 0 %d) 0 = Ok (%s, %d)'
             % (byts(c.get('enc')), z(c.get('dec')), len(e), z(c.get('dec')), len(e), z(c.get('dec')), len(e), byts(c.get('enc')), len(e)), c.get('name'))
    p = C + 'av1/obu_header_test.go'
    f.section(p)
    for c in golit.var(p, 'casesOBUHeader', {'OBUTypeSequenceHeader': 1}).vals():
        h = c.get('h')
        f.ex('obu', 'obu_header %s = Ok (%s, %s)' % (byts(c.get('byts')), z(h.get('Type')), b(h.get('HasSize'))), c.get('name'))
    p = C + 'av1/sequence_header_test.go'
    f.section(p)

    def color(l):
        return rec(l, [('cc_high', b, 'HighBitDepth'), ('cc_twelve', b, 'TwelveBit'), ('cc_depth', z, 'BitDepth'), ('cc_mono', b, 'MonoChrome'),
                       ('cc_described', b, 'ColorDescriptionPresentFlag'), ('cc_cp', z, 'ColorPrimaries'), ('cc_tc', z, 'TransferCharacteristics'),
                       ('cc_mc', z, 'MatrixCoefficients'), ('cc_range', b, 'ColorRange'), ('cc_subx', b, 'SubsamplingX'), ('cc_suby', b, 'SubsamplingY'),
                       ('cc_csp', z, 'ChromaSamplePosition')])

    def timing(l):
        return rec(l, [('ti_tick', z, 'NumUnitsInDisplayTick'), ('ti_scale', z, 'TimeScale'), ('ti_equal', b, 'EqualPictureInterval'),
                       ('ti_ticks_m1', z, 'NumTicksPerPictureMinus1')])

    def ops(*x):
        for l in x[3:]:  # fields that the decoder refuses or leaves at zero
            if any(l.vals()):
                raise ValueError('operating point')
        return lst(['{| op_idc := %s; op_level := %s; op_tier := %s |}' % (z(i), z(j), b(k)) for i, j, k in pairs(*[l.vals() for l in x[:3]])])

    def seq(l):
        inter = Lit(None, l.els)
        itf = [('it_interintra', b, 'EnableInterintraCompound'), ('it_masked', b, 'EnableMaskedCompound'), ('it_warped', b, 'EnableWarpedMotion'),
               ('it_dual', b, 'EnableDualFilter'), ('it_order_hint', b, 'EnableOrderHint'), ('it_jnt', b, 'EnableJntComp'),
               ('it_ref_mvs', b, 'EnableRefFrameMvs'), ('it_choose_sct', b, 'SeqChooseScreenContentTools'), ('it_force_sct', z, 'SeqForceScreenContentTools'),
               ('it_choose_imv', b, 'SeqChooseIntegerMv'), ('it_force_imv', z, 'SeqForceIntegerMv'), ('it_hint_bits_m1', z, 'OrderHintBitsMinus1')]
        it = rec(Lit(None, [e for e in inter.els if e[0] in [x[2] for x in itf]]), itf)
        return rec(l, [
            ('sh_profile', z, 'SeqProfile'), ('sh_still', b, 'StillPicture'), ('sh_reduced', b, 'ReducedStillPictureHeader'),
            ('sh_timing', opt(timing), 'TimingInfo'),
            ('sh_ops', ops, 'OperatingPointIdc', 'SeqLevelIdx', 'SeqTier', 'DecoderModelPresentForThisOp', 'InitialDisplayPresentForThisOp',
             'InitialDisplayDelayMinus1'),
            ('sh_width_m1', z, 'MaxFrameWidthMinus1'), ('sh_height_m1', z, 'MaxFrameHeightMinus1'),
            ('sh_frame_id', lambda x, y, w: '(Some (%s, %s))' % (z(y), z(w)) if x else 'None', 'FrameIDNumbersPresentFlag', 'DeltaFrameIDLengthMinus2',
             'AdditionalFrameIDLengthMinus1'),
            ('sh_sb128', b, 'Use128x128Superblock'), ('sh_filter_intra', b, 'EnableFilterIntra'), ('sh_intra_edge', b, 'EnableIntraEdgeFilter'),
            ('sh_inter', lambda *x: it) + tuple(x[2] for x in itf),
            ('sh_superres', b, 'EnableSuperres'), ('sh_cdef', b, 'EnableCdef'), ('sh_restoration', b, 'EnableRestoration'),
            ('sh_color', color, 'ColorConfig'), ('sh_film_grain', b, 'FilmGrainParamsPresent')])
    for c in golit.var(p, 'casesSequenceHeader').vals():
        f.ex('av1_seq', 'let s := %s in\n  seq_unmarshal %s = Ok s /\\ seq_width s = %d /\\ seq_height s = %d'
             % (seq(c.get('sh')), byts(c.get('byts')), c.get('width'), c.get('height')), c.get('name'))
    p = C + 'vp9/header_test.go'
    f.section(p)

    def v9c(l):
        return rec(l, [('v9_twelve', b, 'TenOrTwelveBit'), ('v9_depth', z, 'BitDepth'), ('v9_space', z, 'ColorSpace'), ('v9_range', b, 'ColorRange'),
                       ('v9_ssx', b, 'SubsamplingX'), ('v9_ssy', b, 'SubsamplingY')])
    for c in golit.var(p, 'casesHeader').vals():
        h = rec(c.get('sh'), [('v9_profile', z, 'Profile'), ('v9_show_existing', b, 'ShowExistingFrame'), ('v9_map_idx', z, 'FrameToShowMapIdx'),
                              ('v9_non_key', b, 'NonKeyFrame'), ('v9_show', b, 'ShowFrame'), ('v9_err_res', b, 'ErrorResilientMode'),
                              ('v9_color', opt(v9c), 'ColorConfig'),
                              ('v9_size', opt(lambda l: '(%s, %s)' % (z(l.get('FrameWidthMinus1')), z(l.get('FrameHeightMinus1')))), 'FrameSize')])
        f.ex('vp9', 'let s := %s in\n  vp9_unmarshal %s = Ok s /\\ vp9_width s = %d /\\ vp9_height s = %d'
             % (h, byts(c.get('byts')), c.get('width'), c.get('height')), c.get('name'))
    f.write()


# ---------------------------------------------------------------- audio, JPEG
OT = {'ObjectTypeAACLC': 2, 'ObjectTypeSBR': 5, 'ObjectTypePS': 29, 'mpeg4audio.ObjectTypeAACLC': 2, 'mpeg4audio.ObjectType': None}


def asc(l):
    return rec(l, [('as_type', z, 'Type'), ('as_rate', z, 'SampleRate'), ('as_cfg', z, 'ChannelConfig'), ('as_count', z, 'ChannelCount'),
                   ('as_ext_type', z, 'ExtensionType'), ('as_ext_rate', z, 'ExtensionSampleRate'), ('as_short', b, 'FrameLengthFlag'),
                   ('as_core', b, 'DependsOnCoreCoder'), ('as_delay', z, 'CoreCoderDelay')])


def smc(l):
    def layer(x):
        return rec(x, [('l_asc', opt(asc), 'AudioSpecificConfig'), ('l_flt', z, 'FrameLengthType'), ('l_fullness', z, 'LatmBufferFullness'),
                       ('l_length', z, 'FrameLength'), ('l_celp', z, 'CELPframeLengthTableIndex'), ('l_hvxc', b, 'HVXCframeLengthTableIndex')])

    def prog(x):
        return lst([layer(y) for y in x.get('Layers').vals()])
    return rec(l, [('m_subframes', z, 'NumSubFrames'), ('m_programs', lambda x: lst([prog(y) for y in x.vals()]), 'Programs'),
                   ('m_other', b, 'OtherDataPresent'), ('m_other_len', z, 'OtherDataLenBits'), ('m_crc', b, 'CRCCheckPresent'),
                   ('m_crc_sum', z, 'CRCCheckSum')])


def audio():
    f = File('VecAudio', ['Base', 'AacModel', 'AudioHdrModel', 'PceModel', 'G711Model', 'JpegModel'])
    M = C + 'mpeg4audio/'
    p = M + 'adts_test.go'
    f.section(p)
    for c in golit.var(p, 'casesADTS', OT).vals():
        ps = lst([rec(x, [('ad_type', z, 'Type'), ('ad_rate', z, 'SampleRate'), ('ad_cfg', z, 'ChannelConfig'), ('ad_count', z, 'ChannelCount'),
                          ('ad_au', byts, 'AU')]) for x in c.get('pkts').vals()])
        f.ex('adts', 'adts_unmarshal [] %s = Ok %s /\\ adts_marshal %s = Ok %s' % (byts(c.get('byts')), ps, ps, byts(c.get('byts'))), c.get('name'))
    p = M + 'audio_specific_config_test.go'
    f.section(p)
    for c in golit.var(p, 'audioSpecificConfigCases', OT).vals():
        a = asc(c.get('dec'))
        f.ex('asc', 'asc_unmarshal %s = Ok %s /\\ asc_marshal %s = Ok %s' % (byts(c.get('enc')), a, a, byts(c.get('enc'))), c.get('name'))
    f.ex('asc', 'asc_unmarshal [0x11; 0x90; 0x08; 0x10] = Ok %s' % asc(golit.P_prefix(
        'X{Type: 2, SampleRate: 48000, ChannelConfig: 2, ChannelCount: 2}')), 'additional bytes')
    f.ex('asc', 'is_err (asc_marshal %s) = true' % asc(golit.P_prefix('X{Type: 2, SampleRate: 44100, ChannelCount: 9}')), 'invalid channel count')
    p = M + 'stream_mux_config_test.go'
    f.section(p)
    for c in golit.var(p, 'streamMuxConfigCases', OT).vals():
        a = smc(c.get('dec'))
        f.ex('smc', 'smc_unmarshal %s = Ok %s /\\ smc_marshal %s = Ok %s' % (byts(c.get('enc')), a, a, byts(c.get('enc'))), c.get('name'))
    src = open(p).read()
    m = re.search(r'UnmarshalTruncated.*?Unmarshal\((.*?)\)\n.*?require.Equal\(t, (StreamMuxConfig\{.*?\n\t\}), dec\)', src, re.S)
    f.ex('smc', 'smc_unmarshal %s = Ok %s' % (byts(golit.P_prefix(m.group(1))), smc(golit.P_prefix(m.group(2)))), 'truncated')
    p = M + 'audio_mux_element_test.go'
    f.section(p)
    for c in golit.var(p, 'casesAudioMuxElement', OT).vals():
        d = c.get('dec')
        pres, same, cfg = d.get('MuxConfigPresent', False), d.get('UseSameStreamMux', False), smc(d.get('StreamMuxConfig'))
        pls = lst([lst([bytss(y) for y in x.vals()]) for x in d.get('Payloads').vals()])
        f.ex('latm', 'let c := %s in let p := %s in\n  element_unmarshal %s %s %s = Ok (%s, c, p) /\\ element_marshal %s %s c p = Ok %s'
             % (cfg, pls, b(pres), '(Some c)' if not pres or same else 'None', byts(c.get('enc')), b(same), b(pres), b(same), byts(c.get('enc'))), c.get('name'))
    p = M + 'audio_sync_stream_test.go'
    f.section(p)
    for c in golit.var(p, 'casesAudioSyncStream', OT).vals():
        a = bytss(c.get('dec').get('AudioMuxElements'))
        f.ex('loas', 'sync_unmarshal [] %s = Ok %s /\\ sync_marshal %s = Ok %s' % (byts(c.get('enc')), a, a, byts(c.get('enc'))), c.get('name'))
    p = M + 'count_channels_test.go'
    f.section(p)
    for c in golit.var(p, 'countChannelsCases', OT).vals():
        f.ex('count_channels', 'count_channels %s = Ok %s' % (byts(c.get('buf')), z(c.get('count'))), c.get('name'))
    p = M + 'program_config_element_test.go'
    f.section(p)
    for c in golit.var(p, 'parsePCECases', OT).vals():
        f.ex('pce', 'pce_parse %s = Ok %s' % (byts(c.get('buf')), rec(c.get('pce'), [
            ('pc_tag', z, 'ElementInstanceTag'), ('pc_object', z, 'ObjectType'), ('pc_rate', z, 'SamplingFrequencyIndex'), ('pc_front', z, 'NumFrontChannelElements'),
            ('pc_side', z, 'NumSideChannelElements'), ('pc_back', z, 'NumBackChannelElements'), ('pc_lfe', z, 'NumLFEChannelElements'),
            ('pc_assoc', z, 'NumAssocDataElements'), ('pc_cc', z, 'NumValidCCElements'), ('pc_channels', z, 'ChannelCount')])), c.get('name'))
    p = C + 'mpeg1audio/frame_header_test.go'
    f.section(p)
    for c in golit.var(p, 'casesFrameHeader', {'ChannelModeStereo': 0, 'ChannelModeJointStereo': 1, 'ChannelModeDualChannel': 2, 'ChannelModeMono': 3}).vals():
        h = rec(c.get('dec'), [('mpa_mpeg2', b, 'MPEG2'), ('mpa_layer', z, 'Layer'), ('mpa_bitrate', z, 'Bitrate'), ('mpa_sample_rate', z, 'SampleRate'),
                               ('mpa_padding', b, 'Padding'), ('mpa_mode', z, 'ChannelMode')])
        f.ex('mpeg1audio', 'let h := %s in\n  mpa_unmarshal %s = Ok h /\\ mpa_frame_len h = Ok %d /\\ mpa_sample_count h = Ok %d'
             % (h, byts(c.get('enc')), c.get('frameLen'), c.get('sampleCount')), c.get('name'))
    p = C + 'ac3/sync_info_test.go'
    f.section(p)
    for c in golit.var(p, 'ac3Cases').vals():
        e = bytes_of(c.get('enc'))
        s = rec(c.get('syncInfo'), [('ac3_fscod', z, 'Fscod'), ('ac3_frmsizecod', z, 'Frmsizecod')])
        bs = rec(c.get('bsi'), [('bsi_bsid', z, 'Bsid'), ('bsi_bsmod', z, 'Bsmod'), ('bsi_acmod', z, 'Acmod'), ('bsi_lfeon', b, 'LfeOn')])
        # the parsers only look at the first bytes of the frame
        f.ex('ac3', 'let s := %s in\n  ac3_sync_unmarshal %s = Ok s /\\ ac3_frame_size s = Ok %d /\\ ac3_sample_rate s = %s /\\\n  ac3_bsi_unmarshal %s = Ok %s'
             % (s, lst(map(z, e[:32])), len(e), z(c.get('sampleRate')), lst(map(z, e[5:32])), bs), c.get('name'))
    p = C + 'eac3/sync_info_test.go'
    f.section(p)
    for c in golit.var(p, 'eac3Cases').vals():
        s = rec(c.get('syncInfo'), [('e_strmtyp', z, 'Strmtyp'), ('e_substreamid', z, 'Substreamid'), ('e_frmsiz', z, 'Frmsiz'), ('e_fscod', z, 'Fscod'),
                                    ('e_fscod2', z, 'Fscod2'), ('e_numblkscod', z, 'Numblkscod'), ('e_acmod', z, 'Acmod'), ('e_lfeon', b, 'Lfeon'),
                                    ('e_bsid', z, 'Bsid')])
        f.ex('eac3', 'let s := %s in\n  eac3_unmarshal 0 %s = Ok s /\\ eac3_frame_size s = %d /\\ eac3_sample_rate s = Ok %d /\\\n'
             '  eac3_channel_count s = Ok %d /\\ eac3_num_blocks s = %d'
             % (s, byts(c.get('enc')), c.get('frameSizes'), c.get('sampleRate'), c.get('channelCount'), c.get('numBlocks')), c.get('name'))
    p = C + 'opus/packet_duration_test.go'
    f.section(p)
    f.ex('opus_duration', 'opus_packet_duration2 [1] = Ok 960 /\\ opus_packet_duration [1] = Ok 20000000')
    p = C + 'opus/id_header_test.go'
    f.section(p)
    for c in golit.var(p, 'idHeaderCases').vals():
        h = rec(c.get('dec'), [('oid_version', z, 'Version'), ('oid_channels', z, 'ChannelCount'), ('oid_preskip', z, 'PreSkip'), ('oid_rate', z, 'InputSampleRate'),
                               ('oid_gain', z, 'OutputGain'), ('oid_family', z, 'ChannelMappingFamily'), ('oid_table', byts, 'ChannelMappingTable')])
        f.ex('opus_id', 'opus_id_unmarshal %s = Ok %s /\\ opus_id_marshal %s = %s' % (byts(c.get('enc')), h, h, byts(c.get('enc'))), c.get('name'))
    p = C + 'flac/stream_info_test.go'
    f.section(p)
    for c in golit.var(p, 'streamInfoCases').vals():
        h = rec(c.get('dec'), [('fl_minblk', z, 'MinBlockSize'), ('fl_maxblk', z, 'MaxBlockSize'), ('fl_minfrm', z, 'MinFrameSize'), ('fl_maxfrm', z, 'MaxFrameSize'),
                               ('fl_rate', z, 'SampleRate'), ('fl_channels', z, 'ChannelCount'), ('fl_depth', z, 'BitDepth'), ('fl_total', z, 'TotalSamples'),
                               ('fl_md5', lambda l: lst([z(x) for x in (bytes_of(l) + [0] * 16)[:16]]), 'MD5')])
        f.ex('flac', 'flac_unmarshal %s = Ok %s /\\ flac_marshal %s = %s' % (byts(c.get('enc')), h, h, byts(c.get('enc'))), c.get('name'))
    f.section(C + 'g711/*_test.go')
    for n in ('alaw', 'mulaw'):
        src = open(C + 'g711/%s_test.go' % n).read()
        d = golit.P_prefix(re.search(r'(g711\.\w+\{.*?\}),\n', src, re.S).group(1))
        e = golit.P_prefix(re.search(r'require.Equal\(t, (\[\]byte\{.*?\}), enc', src).group(1))
        f.ex('g711', '%s_unmarshal [1; 2; 3; 255; 254; 253] = %s /\\ %s_marshal [1; 2; 3; 4; 5; 6] = Ok %s' % (n, byts(d), n, byts(e)), n)
    J = C + 'jpeg/'
    p = J + 'define_quantization_table_test.go'
    f.section(p)
    for c in golit.var(p, 'casesDefineQuantizationTable').vals():
        ts = lst([rec(x, [('qt_id', z, 'ID'), ('qt_precision', z, 'Precision'), ('qt_data', byts, 'Data')]) for x in c.get('dec').get('Tables').vals()])
        e = bytes_of(c.get('enc'))
        f.ex('dqt', 'dqt_unmarshal [] %s = Ok %s /\\ dqt_marshal [] %s = %s' % (lst(map(z, e[4:])), ts, ts, lst(map(z, e))), c.get('name'))
    p = J + 'define_huffman_table_test.go'
    f.section(p)
    for c in golit.var(p, 'casesDefineHuffmanTable').vals():
        t = rec(c.get('dec'), [('ht_codes', byts, 'Codes'), ('ht_symbols', byts, 'Symbols'), ('ht_number', z, 'TableNumber'), ('ht_class', z, 'TableClass')])
        f.ex('dht', 'dht_marshal [] %s = %s' % (t, byts(c.get('enc'))), c.get('name'))
    p = J + 'define_restart_interval_test.go'
    f.section(p)
    for c in golit.var(p, 'casesDefineRestartInterval').vals():
        f.ex('dri', 'dri_unmarshal %s = Ok %s' % (lst(map(z, bytes_of(c.get('enc'))[4:])), z(c.get('dec').get('Interval'))), c.get('name'))
    p = J + 'start_of_frame1_test.go'
    f.section(p)
    for c in golit.var(p, 'casesStartOfFrame1').vals():
        t = rec(c.get('dec'), [('sof_type', z, 'Type'), ('sof_width', z, 'Width'), ('sof_height', z, 'Height'), ('sof_qtc', z, 'QuantizationTableCount')])
        e = bytes_of(c.get('enc'))
        f.ex('sof', 'sof_unmarshal 2 %s = Ok %s /\\ sof_marshal [] %s = %s' % (lst(map(z, e[4:])), t, t, lst(map(z, e))), c.get('name'))
    p = J + 'start_of_scan_test.go'
    f.section(p)
    for c in golit.var(p, 'casesStartOfScan').vals():
        e = bytes_of(c.get('enc'))
        f.ex('sos', 'sos_unmarshal %s = Ok tt /\\ sos_marshal [] = %s' % (lst(map(z, e[4:])), lst(map(z, e))), c.get('name'))
    f.ex('soi', 'soi_marshal [] = [0xff; 0xd8]')
    f.write()


T = '/repo/pkg/formats/mpegts/'


def clock(x):
    return ((x[0] >> 1) & 7) << 30 | x[1] << 22 | (x[2] >> 1) << 15 | x[3] << 7 | x[4] >> 1


def ts_split(raw):
    """TS packets as (pid, start, random access, pcr, payload)."""
    out = []
    for i in range(0, len(raw) - 187, 188):
        p = raw[i:i + 188]
        assert p[0] == 0x47
        pid, start, afc, j, ra, pcr = (p[1] & 31) << 8 | p[2], bool(p[1] & 64), p[3] >> 4 & 3, 4, False, None
        if afc & 2:
            if p[4] > 0:
                ra = bool(p[5] & 64)
                if p[5] & 16:
                    pcr = p[6] << 25 | p[7] << 17 | p[8] << 9 | p[9] << 1 | p[10] >> 7
            j = 5 + p[4]
        out.append((pid, start, ra, pcr, p[j:] if afc & 1 else []))
    return out


def ts_packets(lits):
    """The same from astits.Packet literals."""
    out = []
    for k in lits.vals():
        h, a = k.get('Header'), k.get('AdaptationField')
        out.append((h.get('PID') or 0, bool(h.get('PayloadUnitStartIndicator')), bool(a and a.get('RandomAccessIndicator')),
                    a.get('PCR').get('Base') if a and a.get('HasPCR') else None, bytes_of(k.get('Payload'))))
    return out


def ts_desc(tag, d):
    if tag == 5:
        return 'DReg %d' % int.from_bytes(bytes(d[:4]), 'big')
    if tag == 0x0a:
        return 'DLang %s' % lst(map(z, d[:3]))
    if tag == 0x7f:
        return 'DExt %d (Some %s)' % (d[0], lst(map(z, d[1:])))
    if tag in (0x6a, 0x7a):
        # component_type and bsid flags; the component type as astits assembles it is compared by the bits of the wire
        assert d[0] & 0xc0 == 0xc0
        return '%s %d %d' % ('DAC3' if tag == 0x6a else 'DEAC3', d[1], d[2])
    if tag == 0x59:
        its = ['{| dv_lang := %s; dv_type := %d; dv_comp := %d; dv_anc := %d |}' % (lst(map(z, d[i:i + 3])), d[i + 3], d[i + 4] << 8 | d[i + 5], d[i + 6] << 8 | d[i + 7])
               for i in range(0, len(d), 8)]
        return 'DSub ' + lst(its)
    if tag in (0x26, 0x27):
        return 'DUnknown %d %s' % (tag, lst(map(z, d)))
    raise ValueError('descriptor %d' % tag)


def ts_pmt(p):
    p = p[1 + p[0]:]
    assert p[0] == 2
    n = (p[1] & 15) << 8 | p[2]
    end = 3 + n - 4
    i = 12 + ((p[10] & 15) << 8 | p[11])
    out = []
    while i < end:
        ty, pid, m = p[i], (p[i + 1] & 31) << 8 | p[i + 2], (p[i + 3] & 15) << 8 | p[i + 4]
        d, j, ds = p[i + 5:i + 5 + m], 0, []
        while j < m:
            ds.append(ts_desc(d[j], d[j + 2:j + 2 + d[j + 1]]))
            j += 2 + d[j + 1]
        out.append('{| es_pid := %d; es_type := %d; es_descs := %s |}' % (pid, ty, lst(ds)))
        i += 5 + m
    return lst(out)


class Pes:
    pass


def ts_demux(pkts, pmt_pid):
    """PMTs (as Coq terms) and PES packets, in the order in which a demuxer returns them."""
    cur, out = {}, []

    def flush(pid):
        q = cur.pop(pid, None)
        if q is None:
            return
        d = q.raw
        assert d[:3] == [0, 0, 1]
        ln = d[4] << 8 | d[5]
        if ln:
            d = d[:6 + ln]
        ind = d[7] >> 6
        q.ind, q.pts, q.dts = ind, clock(d[9:14]) if ind & 2 else 0, clock(d[14:19]) if ind == 3 else 0
        q.data = d[9 + d[8]:]
        q.hdr = 'Some (%d, %d, %d)' % (ind, q.pts, q.dts)
        out.append(('pes', q))
    for pid, start, ra, pcr, pay in pkts:
        if pid == 0:
            continue
        if pid == pmt_pid:
            out.append(('pmt', ts_pmt(pay)))
            continue
        if start:
            flush(pid)
            q = Pes()
            q.pid, q.ra, q.pcr, q.raw = pid, ra, pcr, []
            cur[pid] = q
        cur[pid].raw = cur[pid].raw + pay
    for pid in sorted(cur):
        flush(pid)
    return out


def ts_items(dem, last='None'):
    return lst(['IPmt %s' % x if k == 'pmt' else 'IPes %d (%s) %s (%s)' % (x.pid, x.hdr, lst(map(z, x.data)), last) for k, x in dem])


def ts_opus_desc(d):
    return rec(d, [('od_code', z, 'ChannelConfigCode'), ('od_count', z, 'ExplicitChannelCount'), ('od_family', z, 'MappingFamily'), ('od_streams', z, 'StreamCount'),
                   ('od_coupled', z, 'CoupledStreamCount'), ('od_mapping', byts, 'ChannelMapping')])


def ts_codec(c):
    n = c.ty.split('.')[-1]
    if n == 'Opus':
        return 'cOpus %s %d' % (opt(ts_opus_desc)(c.get('Desc')), c.get('ChannelCount'))
    if n == 'MPEG4Audio':
        a = c.get('Config')
        return 'cMpeg4Audio %s %s %s %s' % tuple(z(a.get(k)) for k in ('Type', 'SampleRate', 'ChannelConfig', 'ChannelCount'))
    if n in ('AC3', 'EAC3'):
        return 'c%s %d %d' % (n, c.get('SampleRate'), c.get('ChannelCount'))
    if n == 'KLV':
        return 'cKlv %s' % b(c.get('Synchronous'))
    if n == 'DVBSubtitle':
        return 'cDvb ' + lst([rec(x, [('dv_lang', byts, 'Language'), ('dv_type', z, 'Type'), ('dv_comp', z, 'CompositionPageID'), ('dv_anc', z, 'AncillaryPageID')])
                              for x in c.get('Items').vals()])
    return {'H265': 'cH265', 'H264': 'cH264', 'MPEG4Video': 'cMpeg4Video', 'MPEG1Video': 'cMpeg1Video', 'MPEG4AudioLATM': 'cLatm', 'MPEG1Audio': 'cMpeg1Audio'}[n]


def ts_track(t):
    return rec(t, [('tr_pid', z, 'PID'), ('tr_lang', byts, 'Language'), ('tr_codec', ts_codec, 'Codec')])


def mpegts():
    f = File('VecTs', ['Base', 'Reader', 'Writer', 'IoModel', 'AacModel', 'AudioHdrModel', 'TsModel', 'TimeModel', 'Ts2Model'])
    f.out.append("Definition written (size : Z) (w : wr) : res (list Z) := b <- make 0 size ;; '(b, _) <- w b 0 ;; Ok b.")
    S = T + 'substructs/'
    p = S + 'metadata_au_cell_test.go'
    f.section(p)
    for c in golit.var(p, 'casesMetadataAUCell').vals():
        v = rec(c.get('dec'), [('ce_service', z, 'MetadataServiceID'), ('ce_seq', z, 'SequenceNumber'), ('ce_frag', z, 'CellFragmentIndication'),
                               ('ce_conf', b, 'DecoderConfigFlag'), ('ce_ra', b, 'RandomAccessIndicator'), ('ce_data', byts, 'AUCellData')])
        e = c.get('enc')
        f.ex('au_cell', 'cell_unmarshal %s = Ok (%s, %d) /\\ written %d (cell_marshal_to %s) = Ok %s' % (byts(e), v, len(e.els), len(e.els), v, byts(e)), c.get('name'))
    p = S + 'metadata_descriptor_test.go'
    f.section(p)
    for c in golit.var(p, 'casesMetadataDescriptor').vals():
        v = rec(c.get('dec'), [('md_app', z, 'MetadataApplicationFormat'), ('md_app_id', z, 'MetadataApplicationFormatIdentifier'), ('md_fmt', z, 'MetadataFormat'),
                               ('md_fmt_id', z, 'MetadataFormatIdentifier'), ('md_service', z, 'MetadataServiceID'), ('md_flags', z, 'DecoderConfigFlags'),
                               ('md_dsmcc', b, 'DSMCCFlag'), ('md_service_ident', byts, 'ServiceIdentification'), ('md_config', byts, 'DecoderConfig'),
                               ('md_config_ident', byts, 'DecConfigIdentification'), ('md_config_service', z, 'DecoderConfigMetadataServiceID'),
                               ('md_private', byts, 'PrivateData')])
        f.ex('metadata', 'meta_unmarshal %s = Ok %s /\\ meta_marshal %s = Ok %s' % (byts(c.get('enc')), v, v, byts(c.get('enc'))), c.get('name'))
    p = S + 'metadata_std_descriptor_test.go'
    f.section(p)
    for c in golit.var(p, 'casesMetadataSTDDescriptor').vals():
        v = rec(c.get('dec'), [('sd_in', z, 'MetadataInputLeakRate'), ('sd_buf', z, 'MetadataBufferSize'), ('sd_out', z, 'MetadataOutputLeakRate')])
        f.ex('metadata_std', 'std_unmarshal %s = Ok %s /\\ std_marshal %s = Ok %s' % (byts(c.get('enc')), v, v, byts(c.get('enc'))), c.get('name'))

    def ctl(h):
        return rec(h, [('oh_size', z, 'PayloadSize'), ('oh_start_flag', b, 'StartTrimFlag'), ('oh_end_flag', b, 'EndTrimFlag'), ('oh_ext_flag', b, 'ControlExtensionFlag'),
                       ('oh_start', z, 'StartTrim'), ('oh_end', z, 'EndTrim'), ('oh_ext_len', z, 'ControlExtensionLength')])
    p = S + 'opus_access_unit_test.go'
    f.section(p)
    for c in golit.var(p, 'OpusAccessUnitCases').vals():
        h, pk, e = ctl(c.get('dec').get('ControlHeader')), byts(c.get('dec').get('Packet')), c.get('enc')
        f.ex('opus_au', 'opus_au_unmarshal %s = Ok (%s, %s, %d) /\\ written %d (opus_au_marshal_to %s %s) = Ok %s'
             % (byts(e), h, pk, len(e.els), len(e.els), h, pk, byts(e)), c.get('name'))
    p = S + 'opus_control_header_test.go'
    f.section(p)
    for c in golit.var(p, 'OpusControlHeaderCases').vals():
        h, e = ctl(c.get('dec')), c.get('enc')
        f.ex('opus_ctl', 'opus_hdr_unmarshal %s = Ok (%s, %d) /\\ opus_hdr_size %s = %d /\\ written %d (opus_hdr_marshal_to %s) = Ok %s'
             % (byts(e), h, len(e.els), h, len(e.els), len(e.els), h, byts(e)), c.get('name'))
    p = S + 'opus_audio_descriptor_test.go'
    f.section(p)
    for c in golit.var(p, 'audioDescriptorCases').vals():
        v = ts_opus_desc(c.get('desc'))
        f.ex('opus_desc', 'opus_desc_unmarshal %s = Ok %s /\\ opus_desc_marshal %s = Ok %s /\\ opus_channel_count %s = %d'
             % (byts(c.get('enc')), v, v, byts(c.get('enc')), v, c.get('channelCount')), c.get('name'))
    f.section(T + 'time_decoder_test.go')
    src = open(T + 'time_decoder_test.go').read()
    for name in ('TestTimeDecoderNegativeDiff', 'TestTimeDecoderOverflowAndBack'):
        body = src[src.index('func ' + name):]
        body = body[:body.index('\n}\n')]
        ins = [golit.P(x).expr() for x in re.findall(r'd\.Decode\((.*?)\)\n', body)]
        outs = [golit.P(x).expr() for x in re.findall(r'int64\((.*?)\), ts\)', body)]
        f.ex('time', 'td_run td_new %s = %s' % (lst(map(z, ins)), lst(map(z, outs))), name)
    f.section(T + 'buffered_reader_test.go')
    f.ex('buffered', 'let r := br_new [(repeat 1 188 ++ repeat 2 188 ++ repeat 3 188, None)] in\n  let \'(a, e, r) := br_read r 188 in let \'(c, g, _) := br_read r 188 in\n'
         '  a = repeat 1 188 /\\ e = None /\\ c = repeat 2 188 /\\ g = None', 'TestBufferedReader')
    f.ex('buffered', 'let \'(_, e, _) := br_read (br_new [(repeat 1 1000, None)]) 188 in e <> None', 'TestBufferedReaderError', 'vm_compute. discriminate.')
    p = T + 'reader_test.go'
    f.section(p + ' and writer_test.go: each table is read and written')
    env = {n: golit.var(p, n) for n in ('testH265SPS', 'testH265PPS', 'testH264SPS')}
    env.update({'h265.NALUType_CRA_NUT': 21, 'h265.NALUType_TRAIL_N': 0})
    for c in golit.var(p, 'casesReadWriter', env).vals():
        t = ts_track(c.get('track'))
        dem = ts_demux(ts_packets(c.get('packets')), 4096)
        pmt = dem[0][1]
        pess = [x for k, x in dem if k == 'pes']
        ss = [s.vals() for s in c.get('samples').vals()]
        n = c.get('track').get('Codec').ty.split('.')[-1]
        pid = c.get('track').get('PID')
        if n in ('H264', 'H265'):
            us = ['WVideo %d %d %s' % (s[0], s[1], bytss(s[2])) for s in ss]
            evs = ['EVideo %d %d %s' % (s[0], s[1], bytss(s[2])) for s in ss]
            ops = ['OVideo %d %d %d %s' % (pid, s[0], s[1], b(q.ra)) for s, q in zip(ss, pess)]
        elif n in ('Opus', 'MPEG4Audio', 'MPEG4AudioLATM', 'MPEG1Audio'):
            us = ['WUnits %d %s' % (s[0], bytss(s[2])) for s in ss]
            evs = ['EUnits %d %s' % (s[0], bytss(s[2])) for s in ss]
            ops = ['OAudio %d %d' % (pid, s[0]) for s in ss]
        else:
            us = ['WFrame %d %s' % (s[0], byts(s[2].vals()[0])) for s in ss]
            evs = ['EFrame %d %s' % (s[0], byts(s[2].vals()[0])) for s in ss]
            if n in ('MPEG4Video', 'MPEG1Video'):
                ops = ['OVideo %d %d %d %s' % (pid, s[0], s[0], b(q.ra)) for s, q in zip(ss, pess)]
            elif n in ('AC3', 'EAC3'):
                ops = ['OAudio %d %d' % (pid, s[0]) for s in ss]
            else:
                ops = ['OData %d true %d' % (pid, s[0]) for s in ss]
        f.ex('ts', 'let t := %s in let items := %s in\n  reader_init items = Ok [t] /\\ (\'(_, es) <- writer_init [t] ;; Ok (map carried_es es)) = Ok %s /\\\n'
             '  read_all [t] (fun _ => true) items = Ok %s /\\\n  write_all [t] (fun _ => false) %s = Ok %s /\\\n  snd (wrun None (wnew (fun _ => false)) %s) = %s'
             % (t, ts_items(dem), pmt,
                lst(['Delivered %d (%s)' % (pid, evs.pop(0)) if k == 'pes' else 'Quiet' for k, x in dem]), lst(['(%d, %s)' % (pid, u) for u in us]),
                lst(['(%d, %s, %s)' % (x.pid, x.hdr, lst(map(z, x.data))) for x in pess]), lst(ops),
                lst(['{| wo_track := %d; wo_ra := %s; wo_pcr := %s; wo_pts := Some %d; wo_dts := %s |}'
                     % (x.pid, b(x.ra), opt(z)(x.pcr), x.pts, 'Some %d' % x.dts if x.ind == 3 else 'None') for x in pess])), c.get('name'))
    f.section(p + ' TestReaderDecodeErrors: what is reported; the model keeps the inner message of a wrapped error')
    opus_es = 'DReg opus_identifier; DExt 128 (Some [2])'
    for name, ty, ds, items, err in (
            ('missing pts', 27, '', [('Some (0, 0, 0)', '[1; 2; 3; 4]')], 'PTS is missing'),
            ('h26x invalid avcc', 27, '', [('Some (2, 90000, 0)', '[1; 2; 3; 4]')], 'initial delimiter not found'),
            ('opus pts != dts', 6, opus_es, [('Some (3, 90000, 180000)', '[1; 2; 3; 4]')], 'PTS is not equal to DTS'),
            ('opus invalid au', 6, opus_es, [('Some (2, 90000, 0)', '[1; 2; 3; 4]')], 'invalid prefix'),
            ('mpeg-1 audio pts != dts', 3, '', [('Some (3, 90000, 180000)', '[1; 2; 3; 4]')], 'PTS is not equal to DTS')):
        its = lst(['IPmt [{| es_pid := 123; es_type := %d; es_descs := [%s] |}]' % (ty, ds)] + ['IPes 123 (%s) %s None' % x for x in items])
        f.ex('decode_error', '(ts <- reader_init %s ;; read_all ts (fun _ => true) %s) = Ok [Quiet; Reported "%s"]' % (its, its, err), name)
    adts = 'd <- adts_marshal [{| ad_type := 2; ad_rate := 44100; ad_cfg := 1; ad_count := 1; ad_au := [1; 2; 3; 4] |}] ;;'
    for name, hdr, outs in (('mpeg-4 audio pts != dts', 'Some (3, 90000, 180000)', 'Reported "PTS is not equal to DTS"; Reported "PTS is not equal to DTS"'),
                            ('mpeg-4 audio invalid', 'Some (2, 90000, 0)', 'Delivered 123 (EUnits 90000 [[1; 2; 3; 4]]); Reported "invalid length"')):
        f.ex('decode_error', '(%s let s := [IPmt [{| es_pid := 123; es_type := 15; es_descs := [] |}]; IPes 123 (%s) d None; IPes 123 (%s) [1; 2; 3; 4] None] in\n'
             '  ts <- reader_init s ;; read_all ts (fun _ => true) s) = Ok [Quiet; %s]' % (adts, hdr, hdr, outs), name)
    f.section(p + ' TestReaderKLVAsync')
    dem = ts_demux(ts_packets(golit.var(p, 'input')), 4096)
    f.ex('klv_async', '(ts <- reader_init %s ;; l <- read_all ts (fun _ => true) %s ;; Ok (ts, l)) =\n'
         '  Ok ([{| tr_pid := 256; tr_lang := []; tr_codec := cH264 |}; {| tr_pid := 257; tr_lang := []; tr_codec := cKlv false |}],\n'
         '      [Quiet; Delivered 256 (EVideo 90000 90000 [[1; 2; 3; 4]]); Delivered 257 (EFrame 90000 [5; 6; 7; 8])])'
         % (ts_items(dem, 'Some 90000'), ts_items(dem, 'Some 90000')))
    p = T + 'track_test.go'
    f.section(p)
    src = open(p).read()
    for c in golit.P_prefix(src[src.index('[]struct {'):]).vals():
        raw = bytes_of(c.get('byts'))
        pk = ts_split(raw)
        pat = pk[0][4]
        pat = pat[1 + pat[0]:]
        dem = ts_demux(pk, (pat[10] & 31) << 8 | pat[11])
        f.ex('track', '(\'(l, s) <- find_pmt %s ;; e <- geti l 0 ;; \'(t, _) <- track_unmarshal s e ;; Ok t) = Ok %s'
             % (ts_items(dem), ts_track(c.get('track'))), c.get('name'))
    f.write()


def fmp4_parts(l):
    def smp(s):
        return rec(s, [('sa_duration', z, 'Duration'), ('sa_offset', z, 'PTSOffset'), ('sa_nonsync', b, 'IsNonSyncSample'), ('sa_payload', byts, 'Payload')])

    def trk(t):
        return rec(t, [('pt_id', z, 'ID'), ('pt_base', z, 'BaseTime'), ('pt_samples', lambda v: lst(map(smp, v.vals())) if v else '[]', 'Samples')])
    return lst([rec(x, [('p_seq', z, 'SequenceNumber'), ('p_tracks', lambda v: lst(map(trk, v.vals())), 'Tracks')]) for x in l.vals()])


def fmp4():
    f = File('VecFrag', ['Base', 'IoModel', 'SampleModel', 'Mp4Box', 'FragModel'])
    p = '/repo/pkg/formats/fmp4/parts_test.go'
    f.section(p)
    for c in golit.var(p, 'casesParts').vals():
        v = fmp4_parts(c.get('parts'))
        f.ex('parts', 'parts_marshal %s = Ok %s /\\ parts_unmarshal %s = Ok %s' % (v, byts(c.get('enc')), byts(c.get('enc')), v), c.get('name'))
    for c in golit.var(p, 'cases').vals():
        f.ex('parts_v0', 'parts_unmarshal %s = Ok %s' % (byts(c.get('enc')), fmp4_parts(c.get('parts'))), c.get('name'))
    f.ex('tfdt_v0', 'parts_unmarshal %s = Ok %s' % (byts(golit.var(p, 'enc')), fmp4_parts(golit.var(p, 'expected'))), 'TestPartsUnmarshalTfdtV0')
    f.section('/repo/pkg/formats/fmp4/seekablebuffer/seekablebuffer_test.go')
    f.ex('seek_start', "is_err (sb_seek sb_new (-2) 0) = true /\\ ('(n, b) <- sb_seek sb_new 0 0 ;; '(m, b) <- sb_write b [1; 2; 3; 4] ;; Ok (n, m)) = Ok (0, 4)")
    f.ex('seek_current', "('(n, b) <- sb_write sb_new [1; 2; 3; 4] ;; '(m, b) <- sb_seek b (-2) 1 ;; '(k, b) <- sb_write b [1; 2; 3; 4] ;; Ok (n, m, k, sb_data b)) = "
         "Ok (4, 2, 4, [1; 2; 1; 2; 3; 4])")
    f.ex('seek_end', "('(n, b) <- sb_write sb_new [1; 2; 3; 4] ;; '(m, b) <- sb_seek b 2 2 ;; '(k, b) <- sb_write b [1; 2; 3; 4] ;; Ok (n, m, k, sb_data b)) = "
         "Ok (4, 6, 4, [1; 2; 3; 4; 0; 0; 1; 2; 3; 4])")
    f.section('/repo/pkg/rewindablereader/reader_test.go')
    f.out.append('Definition dummy_reader2 : source := [([1; 2; 3; 4], None); ([5; 6], None); ([7; 8], None)].')
    f.ex('rewind', "let '(a, e, r) := rw_read (rw_new dummy_reader2) 1024 in let '(b, g, r) := rw_read r 1024 in let r := rw_rewind r in\n"
         "  let '(c, h, r) := rw_read r 1024 in let '(d, i, r) := rw_read r 1024 in let '(q, j, r) := rw_read r 1024 in\n"
         "  (a, b, c, d, q, e, g, h, i, j) = ([1; 2; 3; 4], [5; 6], [1; 2; 3; 4], [5; 6], [7; 8], None, None, None, None, None)", 'TestReader')
    f.ex('rewind', "let '(a, e, r) := rw_read (rw_new dummy_reader2) 1024 in let r := rw_rewind r in\n"
         "  let '(c, h, r) := rw_read r 2 in let '(d, i, r) := rw_read r 2 in\n"
         "  (a, c, d, e, h, i) = ([1; 2; 3; 4], [1; 2], [3; 4], None, None, None)", 'TestReaderDifferentBufSize')
    f.write()


def flac_info(l):
    return rec(l, [('fl_minblk', z, 'MinBlockSize'), ('fl_maxblk', z, 'MaxBlockSize'), ('fl_minfrm', z, 'MinFrameSize'), ('fl_maxfrm', z, 'MaxFrameSize'),
                   ('fl_rate', z, 'SampleRate'), ('fl_channels', z, 'ChannelCount'), ('fl_depth', z, 'BitDepth'), ('fl_total', z, 'TotalSamples'),
                   ('fl_md5', lambda v: byts(v) if v else lst(['0'] * 16), 'MD5')])


def mp4_codec(c):
    n = c.ty.split('.')[-1].lstrip('*&')

    def args(*gs):
        extra = [k for k, _ in c.els if k not in [g for _, g in gs]]
        if extra:
            raise ValueError('fields without a counterpart: %s' % extra)
        return ' '.join(e(c.get(g)) for e, g in gs)
    if n == 'AV1':
        return 'KAv1 ' + args((byts, 'SequenceHeader'))
    if n == 'VP9':
        return 'KVp9 ' + args((z, 'Width'), (z, 'Height'), (z, 'Profile'), (z, 'BitDepth'), (z, 'ChromaSubsampling'), (b, 'ColorRange'))
    if n == 'H265':
        return 'KH265 ' + args((byts, 'VPS'), (byts, 'SPS'), (byts, 'PPS'))
    if n == 'H264':
        return 'KH264 ' + args((byts, 'SPS'), (byts, 'PPS'))
    if n in ('MPEG4Video', 'MPEG1Video'):
        return 'K%s ' % n.capitalize().replace('video', 'Video') + args((byts, 'Config'))
    if n == 'MJPEG':
        return 'KMjpeg ' + args((z, 'Width'), (z, 'Height'))
    if n == 'Opus':
        return 'KOpus ' + args((z, 'ChannelCount'))
    if n == 'FLAC':
        return 'KFlac ' + args((flac_info, 'StreamInfo'))
    if n == 'MPEG4Audio':
        return 'KMpeg4Audio ' + args((asc, 'Config'))
    if n == 'MPEG1Audio':
        return 'KMpeg1Audio ' + args((z, 'SampleRate'), (z, 'ChannelCount'))
    if n == 'AC3':
        return 'KAc3 ' + rec(c, [('k3_rate', z, 'SampleRate'), ('k3_channels', z, 'ChannelCount'), ('k3_fscod', z, 'Fscod'), ('k3_bsid', z, 'Bsid'),
                                 ('k3_bsmod', z, 'Bsmod'), ('k3_acmod', z, 'Acmod'), ('k3_lfe', b, 'LfeOn'), ('k3_code', z, 'BitRateCode')])
    if n == 'EAC3':
        return 'KEac3 ' + rec(c, [('ke_rate', z, 'SampleRate'), ('ke_channels', z, 'ChannelCount'), ('ke_data_rate', z, 'DataRate'), ('ke_asvc', b, 'Asvc'),
                                  ('ke_bsmod', z, 'Bsmod'), ('ke_acmod', z, 'Acmod'), ('ke_lfe', b, 'LfeOn'), ('ke_dep', z, 'NumDepSub'), ('ke_loc', z, 'ChanLoc')])
    if n == 'LPCM':
        return 'KLpcm ' + args((b, 'LittleEndian'), (z, 'BitDepth'), (z, 'SampleRate'), (z, 'ChannelCount'))
    raise ValueError(n)


def boxes_in(raw):
    while raw:
        n = int.from_bytes(bytes(raw[:4]), 'big')
        yield raw[4:8], raw[8:n]
        raw = raw[n:]


def mp4():
    f = File('VecMp4', ['Base', 'AudioHdrModel', 'AacModel', 'Mp4Box', 'CodecModel', 'InitModel', 'PmpModel', 'WireModel'])
    some = opt(lambda c: '(%s)' % mp4_codec(c))
    p = '/repo/pkg/formats/fmp4/init_test.go'
    f.section(p + ': each table is written and read')
    env = {n: golit.var(p, n) for n in ('testSPS',)}
    env['testVideoTrack'] = golit.var(p, 'testVideoTrack', env)
    env['testAudioTrack'] = golit.var(p, 'testAudioTrack', env)
    env['testAudioTrack.Config.SampleRate'] = 44100
    env['mpeg4audio.ObjectTypeAACLC'] = 2
    f.out.append('Definition all_known (_ : list Z) : bool := true.')

    def itracks(d):
        return lst([rec(t, [('it_id', z, 'ID'), ('it_timescale', z, 'TimeScale'), ('it_avg', z, 'AvgBitrate'), ('it_max', z, 'MaxBitrate'),
                            ('it_codec', some, 'Codec')]) for t in d.get('Tracks').vals()])
    for c in golit.var(p, 'casesInit', env).vals():
        d, enc = c.get('dec'), c.get('enc')
        user = []
        if d.get('UserData'):
            moov = [q for t, q in boxes_in(bytes_of(enc)) if bytes(t) == b'moov'][0]
            user = list(boxes_in([q for t, q in boxes_in(moov) if bytes(t) == b'udta'][0]))
        f.ex('init', 'let l := %s in\n  init_marshal_file l %s = Ok %s /\\\n  init_unmarshal_file all_known %s = Ok {| in_tracks := l; in_user := %s |}'
             % (itracks(d), lst(['(%s, %s)' % (lst(map(z, t)), lst(map(z, q))) for t, q in user]), byts(enc), byts(enc),
                lst(['MOther %s (Some %s)' % (lst(map(z, t)), lst(map(z, q))) for t, q in user])), c.get('name'))
    src = open(p).read()
    src = src[src.index('func TestInitUnmarshalOnly'):]
    for c in golit.P_prefix(src[src.index('[]struct {'):], env).vals():
        f.ex('init_only', 'init_unmarshal_file all_known %s = Ok {| in_tracks := %s; in_user := [] |}' % (byts(c.get('byts')), itracks(c.get('init'))), c.get('name'))
    src = src[src.index('func TestInitMarshalEmptyParameters'):]
    for c in golit.P_prefix(src[src.index('[]struct {'):], env).vals():
        f.ex('init_empty', 'is_err (init_marshal_file [{| it_id := 1; it_timescale := 90000; it_avg := 0; it_max := 0; it_codec := %s |}] []) = true'
             % some(c.get('codec')), c.get('name'))
    p = '/repo/pkg/formats/pmp4/presentation_test.go'
    f.section(p + ': each table is written and read, and the payloads are fetched')
    src = open(p).read().replace('make([]byte, 50)', '[]byte{%s}' % ', '.join(['0'] * 50))
    src = re.sub(r'func\(\) \(\[\]byte, error\) \{\s*return (\[\]byte\{[^}]*\}), nil\s*\}', r'\1', src)

    def smp(s):
        return 'Build_psample %s %s %s %s %s' % (z(s.get('Duration')), z(s.get('PTSOffset')), b(s.get('IsNonSyncSample')), z(s.get('PayloadSize')),
                                                 '(Some (Ok %s))' % byts(s.get('GetPayload')) if [k for k, _ in s.els if k == 'GetPayload'] else 'None')

    def ptracks(d):
        def one(t):
            extra = [k for k, _ in t.els if k not in ('ID', 'TimeScale', 'TimeOffset', 'Codec', 'Samples')]
            if extra:
                raise ValueError(extra)
            return 'Build_ptrack %s %s %s %s %s' % (z(t.get('ID')), z(t.get('TimeScale')), z(t.get('TimeOffset')), some(t.get('Codec')),
                                                    lst(map(smp, t.get('Samples').vals())) if t.get('Samples') else '[]')
        return lst([one(t) for t in d.get('Tracks').vals()])
    f.out.append('(** What the tests compare: the tables, and what the accessors return. *)')
    f.out.append('Definition fetched (file : list Z) (l : list (PmpModel.ptrack range)) : list (PmpModel.ptrack (res (list Z))) :=\n'
                 '  map (fun t => Build_ptrack (pt_id t) (pt_timescale t) (pt_offset t) (pt_codec t)\n'
                 '    (map (fun s => Build_psample (sm_duration s) (sm_pts s) (sm_nonsync s) (sm_size s) (option_map (get_payload file) (sm_get s))) (pt_samples t))) l.')
    for c in golit.P_prefix(src[src.index('[]struct {'):], env).vals():
        f.ex('pres', 'let l := %s in let file := %s in\n  pres_marshal_file l = Ok file /\\ (r <- pres_unmarshal_file all_known file ;; Ok (fetched file r)) = Ok l'
             % (ptracks(c.get('dec')), byts(c.get('enc'))), c.get('name'))
    src = src[src.index('func TestPresentationUnmarshalOnly'):]
    for c in golit.P_prefix(src[src.index('[]struct {'):], env).vals():
        f.ex('pres_only', 'let file := %s in\n  (r <- pres_unmarshal_file all_known file ;; Ok (fetched file r)) = Ok %s'
             % (byts(c.get('enc')), ptracks(c.get('dec'))), c.get('name'))
    f.write()


if __name__ == '__main__':
    todo = sys.argv[1:]
    for g in (bits_nalus, h26x, av1_vp9, audio, mpegts, fmp4, mp4):
        if not todo or g.__name__ in todo:
            g()
